(** Proofs about adiff, alos and ascat. *)
From Verif Require Import Frame SpecLr SpecAtten Scripts PfFrame PfLrGen PfArea PfRegime PfCurves PfH0f PfCurves2 Cases PfRuns.
Open Scope R_scope.

Definition vals (p : prop RA) (k : nkey) : R := match pn p k with Some x => x | None => 0 end.
Lemma vals_get (p : prop RA) k x : getn p k = Ok x -> vals p k = x /\ pn p k = Some (vals p k).
Proof. intro E. apply pn_getn in E. unfold vals. rewrite E. auto. Qed.
Ltac getv H x := let E := fresh "E" in apply bind_inv in H as [x [E H]];
  let E1 := fresh "V" in let E2 := fresh "P" in destruct (vals_get _ _ _ E) as [E1 E2]; clear E; symmetry in E1; subst x.

Lemma dh_at_inv (d dh q : R) : dh_at RA d dh = Ok q -> q = (1 - 0.8 * exp (- d / 50000)) * dh.
Proof.
  unfold dh_at. intro H. apply bind_inv in H as [u [E H]]. apply r_div_inv in E as [_ ->].
  cbn in H. inversion H. replace (8 / 10) with 0.8 by lra. replace (50000 / 1) with 50000 by field. reflexivity.
Qed.
Lemma adiff_frame_any (A : arith) (d : num A) p a p' : n_eqb d #0%num = false -> adiff A d p = Ok (a, p') -> p' = p.
Proof.
  intros N H. unfold adiff in H. apply bind_inv in H as [t [_ H]]. rewrite N in H. apply bind_inv in H as [x [_ H]].
  inversion H. reflexivity.
Qed.
Definition diff_keys : list nkey := [THA; GME; DLA; WN; DL0; DL1; QK; XHT; AHT; WD1; XD1; DH; AFO].
Lemma knife_bounds v : 6.02 < knife v.
Proof.
  destruct (aknfe_lower v) as [y [E H]]. rewrite aknfe_spec in E. fold (knife v) in E. inversion E. lra.
Qed.
Lemma adiff_value (d a : R) (p p' : prop RA) : d <> 0 -> adiff RA d p = Ok (a, p') ->
  exists v, values p diff_keys v /\
    let w := diff_weight v d in
    0 < w <= 1 /\ 12.04 < double_knife v d /\
    a = w * rounded_earth v d + (1 - w) * double_knife v d + v AFO.
Proof.
  intros N H. unfold adiff in H. apply bind_inv in H as [th [E3 H]]. apply r_div_inv in E3 as [_ ->].
  cbn [n_eqb RA n_Z] in H. rewrite (proj2 (r_eqb_false d 0) N) in H. apply bind_inv in H as [x [H Hx]]. assert (x = a) by congruence. subst x. clear Hx p'.
  unfold adiff_at in H. getv H tha. getv H gme. getv H dla. getv H wn.
  apply bind_inv in H as [t2 [Et2 H]]. cbn in Et2. inversion Et2; subst; clear Et2.
  getv H dl0. apply bind_inv in H as [v0 [E0 H]]. apply bind_inv in H as [k0 [K0 H]].
  getv H dl1. apply bind_inv in H as [v1 [E1 H]]. apply bind_inv in H as [k1 [K1 H]].
  apply bind_inv in H as [ra [Ea H]]. apply bind_inv in H as [wa [Ew H]]. getv H qk. apply bind_inv in H as [pk [Ep H]].
  getv H xht. apply bind_inv in H as [l [El H]]. getv H aht. getv H wd1. getv H xd1.
  apply bind_inv in H as [t [Et H]]. getv H dh. apply bind_inv in H as [q [Eq H]]. apply dh_at_inv in Eq.
  apply bind_inv in H as [s [Es H]]. apply bind_inv in H as [wd [Ewd H]]. getv H afo. 
  exists (vals p). split.
  { intros k I. unfold diff_keys in I. cbn in I. repeat destruct I as [<-|I]; try assumption. destruct I. }
  cbv zeta. rewrite aknfe_spec in K0, K1. fold (knife v0) in K0. fold (knife v1) in K1.
  inversion K0; subst k0; clear K0. inversion K1; subst k1; clear K1.
  rewrite !pymin_R in *. runfold. apply r_div_inv in E0 as [_ ->]. apply r_div_inv in E1 as [_ ->].
  apply r_div_inv in Ea as [_ ->]. apply r_div_inv in Ep as [Nw ->]. apply r_log_inv in El as [Pl ->].
  apply r_div_inv in Et as [_ ->]. apply r_sqrt_inv in Es as [Ps ->]. apply r_div_inv in Ewd as [_ ->].
  apply r_pow_inv in Ew. destruct Ew as [[Pw ->]|[[_ [_ Ew]]|[_ [Z _]]]]; [|congruence|lra].
  inversion H; subst a; clear H. 
  set (w := diff_weight (vals p) d).
  assert (W : w = 251 / 10 / (251 / 10 + sqrt ((vals p WD1 + vals p XD1 / d) * Rmin (q * vals p WN) (62832 / 10)))).
  { unfold w, diff_weight, irregularity_at. rewrite Eq. replace 25.1 with (251 / 10) by lra. replace 6283.2 with (62832 / 10) by lra. reflexivity. }
  rewrite <- W. assert (Pq := sqrt_pos ((vals p WD1 + vals p XD1 / d) * Rmin (q * vals p WN) (62832 / 10))).
  split; [|split].
  - rewrite W. split; [apply Rdiv_lt_0_compat; lra|]. apply (Rmult_le_reg_r (251 / 10 + sqrt ((vals p WD1 + vals p XD1 / d) * Rmin (q * vals p WN) (62832 / 10)))); [lra|].
    field_simplify; lra.
  - unfold double_knife. match goal with |- _ < knife ?x + knife ?y => pose proof (knife_bounds x); pose proof (knife_bounds y) end. lra.
  - unfold rounded_earth, double_knife, angle_at.
    replace 0.0795775 with (795775 / 10000000) by lra. replace 1.607 with (1607 / 1000) by lra.
    replace 0.05751 with (5751 / 100000) by lra. replace 4.343 with (4343 / 1000) by lra. simpl (_ ^ 2). cbn [Pos.to_nat]. simpl. ring.
Qed.

(** ** alos *)
Lemma c_div_inv (x y z : R * R) : @c_div RA x y = Ok z -> cnorm2 y <> 0 /\ z = cquot x y.
Proof.
  destruct x as [ar ai], y as [br bi]. unfold c_div. cbn [n_leb n_eqb n_abs n_Z RA n_div n_mul n_add n_sub]. intro H.
  unfold cquot, cnorm2, cscale. cbn [fst snd].
  destruct (r_leb (Rabs bi) (Rabs br)) eqn:B; rbool.
  - destruct (r_eqb (Rabs br) 0) eqn:B0; [discriminate|]. rbool.
    assert (N : br <> 0) by (intros ->; apply B0; apply Rabs_R0).
    assert (S : br * br + bi * bi <> 0) by nra.
    apply bind_inv in H as [r [E H]]. apply r_div_inv in E as [_ ->].
    apply bind_inv in H as [re [E H]]. apply r_div_inv in E as [D ->].
    apply bind_inv in H as [im [E H]]. apply r_div_inv in E as [_ ->].
    inversion H. split; [exact S|]. f_equal; field; (split; [|split]) || split; auto; nra.
  - assert (N : bi <> 0) by (intros ->; rewrite Rabs_R0 in B; pose proof (Rabs_pos br); lra).
    assert (S : br * br + bi * bi <> 0) by nra.
    apply bind_inv in H as [r [E H]]. apply r_div_inv in E as [_ ->].
    apply bind_inv in H as [re [E H]]. apply r_div_inv in E as [D ->].
    apply bind_inv in H as [im [E H]]. apply r_div_inv in E as [_ ->].
    inversion H. split; [exact S|]. f_equal; field; (split; [|split]) || split; auto; nra.
Qed.
Lemma rough_inv (q s : R) : rough RA q = Ok s -> 0 <= q /\ s = 0.78 * q * exp (- quarter_power (q / 16)).
Proof.
  unfold rough. intro H. apply bind_inv in H as [t [E H]]. apply r_div_inv in E as [_ ->].
  apply bind_inv in H as [r [E H]]. runfold. apply r_pow_inv in E. inversion H; subst s; clear H.
  unfold quarter_power. replace 0.78 with (78 / 100) by lra. replace 0.25 with (25 / 100) by lra.
  destruct E as [[P ->]|[[Z [_ ->]]|[_ [Z _]]]]; [| |lra].
  - split; [lra|]. destruct (Rlt_dec 0 (q / 16)); [reflexivity | lra].
  - split; [lra|]. destruct (Rlt_dec 0 (q / 16)); [lra | reflexivity].
Qed.
Definition alos_keys : list nkey := [DH; HE0; HE1; ZGR; ZGI; WN; EMD; AED; WIS].
Lemma cnorm2_scale k x : cnorm2 (cscale k x) = k ^ 2 * cnorm2 x.
Proof. unfold cnorm2, cscale. cbn [fst snd]. ring. Qed.
Lemma cnorm2_pos x : 0 <= cnorm2 x.
Proof. unfold cnorm2. nra. Qed.

Lemma alos_refl_inv (d : R) (p : prop RA) s r : alos_refl RA d p = Ok (s, r) ->
  values p [DH; HE0; HE1; ZGR; ZGI; WN] (vals p) /\ 0 <= irregularity_at (vals p) d /\
  0 < d ^ 2 + (vals p HE0 + vals p HE1) ^ 2 /\ cnorm2 (graze (vals p) d + vals p ZGR, vals p ZGI) <> 0 /\
  (cnorm2 (rough_reflection (vals p) d) < Rmax 0.25 (graze (vals p) d) -> cnorm2 (rough_reflection (vals p) d) <> 0 /\
    0 <= graze (vals p) d / cnorm2 (rough_reflection (vals p) d)) /\
  r = reflection (vals p) d.
Proof.
  intro H. unfold alos_refl in H. getv H dh. apply bind_inv in H as [q [Eq H]]. apply dh_at_inv in Eq.
  apply bind_inv in H as [ro [Er H]]. apply rough_inv in Er as [Pq Er].
  getv H he0. getv H he1. apply bind_inv in H as [d2 [E2 H]]. apply bind_inv in H as [q2 [E3 H]].
  cbn in E2, E3. inversion E2; subst d2; clear E2. inversion E3; subst q2; clear E3.
  apply bind_inv in H as [t [Et H]]. apply bind_inv in H as [sp [Es H]]. getv H zr. getv H zi.
  apply bind_inv in H as [c [Ec H]]. getv H wn. apply bind_inv in H as [e [Ee H]]. apply bind_inv in H as [ra [Ea H]].
  apply bind_inv in H as [qq [Eqq H]]. apply c_div_inv in Ec as [Nc Ec].
  rewrite pymin_R in Ee. runfold. inversion Ee; subst e; clear Ee. inversion Ea; subst ra; clear Ea.
  apply r_sqrt_inv in Et as [Pt ->]. apply r_div_inv in Es as [Ns Es].
  rewrite r_powZ_2 in Eqq.
  assert (Gr : sp = graze (vals p) d).
  { unfold graze. rewrite Es. reflexivity. }
  assert (Ir : q = irregularity_at (vals p) d) by exact Eq.
  assert (Ro : ro = roughness (vals p) d).
  { unfold roughness. rewrite Er, <- Ir. reflexivity. }
  unfold reflection. set (rr := rough_reflection (vals p) d).
  assert (Cq : c = cquot (graze (vals p) d - vals p ZGR, - vals p ZGI) (graze (vals p) d + vals p ZGR, vals p ZGI)).
  { rewrite Ec, Gr. unfold Rminus at 2. rewrite !Rplus_0_l. reflexivity. }
  clear Ec.
  match type of Eqq with Ok (sqrt (?a * ?a + ?b * ?b) ^ 2) = _ =>
    assert (R1 : a = fst rr) by (unfold rr, rough_reflection; cbn [cscale fst snd]; rewrite <- Cq, <- Gr, <- Ro; ring);
    assert (R2 : b = snd rr) by (unfold rr, rough_reflection; cbn [cscale fst snd]; rewrite <- Cq, <- Gr, <- Ro; ring) end.
  rewrite R1, R2 in Eqq. rewrite R1, R2 in H. clear R1 R2. clearbody rr. rewrite pow2_sqrt in Eqq by nra. fold (cnorm2 rr) in Eqq.
  inversion Eqq; subst qq; clear Eqq.
  split; [intros k I; cbn in I; repeat destruct I as [<-|I]; try assumption; destruct I|].
  split; [rewrite <- Ir; exact Pq|].
  split.
  { destruct (Rlt_dec 0 (d ^ 2 + (vals p HE0 + vals p HE1) ^ 2)) as [Q|Q]; [exact Q|]. exfalso. apply Ns.
    apply sqrt_neg_0. simpl in Q |- *. nra. }
  split. { rewrite <- Gr. replace (vals p ZGI) with (0 + vals p ZGI) by ring. exact Nc. }
  rewrite Gr in H. cbv zeta.
  replace (25 / 100) with 0.25 in H by lra. set (s0 := graze (vals p) d) in *.
  destruct (Rlt_dec (cnorm2 rr) (Rmax 0.25 s0)) as [L|L].
  - assert (B : (r_ltb (cnorm2 rr) 0.25 || r_ltb (cnorm2 rr) s0)%bool = true).
    { apply orb_true_iff. unfold Rmax in L. destruct (Rle_dec 0.25 s0); [right | left]; apply r_ltb_true; exact L. }
    rewrite B in H. apply bind_inv in H as [t1 [E1 H]]. apply r_div_inv in E1 as [N1 ->].
    apply bind_inv in H as [t2 [E2 H]]. apply r_sqrt_inv in E2 as [Q2 ->]. inversion H.
    split; [intros _; split; assumption|]. unfold cscale. f_equal; ring.
  - assert (B : (r_ltb (cnorm2 rr) 0.25 || r_ltb (cnorm2 rr) s0)%bool = false).
    { apply orb_false_iff. pose proof (Rmax_l 0.25 s0). pose proof (Rmax_r 0.25 s0). split; apply r_ltb_false; lra. }
    rewrite B in H. inversion H. split; [intro; contradiction|]. destruct rr; reflexivity.
Qed.

Lemma alos_field_inv (d : R) (r : R * R) (p : prop RA) (f : R) : alos_field RA d r p = Ok f ->
  values p [WN; HE0; HE1] (vals p) /\ f = two_ray r (phase (vals p) d) /\
  0 < cnorm2 (cplus (cos (phase (vals p) d), - sin (phase (vals p) d)) r).
Proof.
  intro H. unfold alos_field in H. getv H wn. getv H he0. getv H he1. apply bind_inv in H as [q [Eq H]].
  apply bind_inv in H as [q' [Eq' H]]. apply bind_inv in H as [c [Ec H]]. apply bind_inv in H as [s [Es H]].
  apply bind_inv in H as [m [Em H]]. apply bind_inv in H as [m2 [Em2 H]]. apply bind_inv in H as [l [El H]].
  runfold. apply r_div_inv in Eq as [Nd Eq]. inversion Ec; subst c; clear Ec. inversion Es; subst s; clear Es.
  inversion Em; subst m; clear Em. rewrite r_powZ_2 in Em2. apply r_log_inv in El as [Pl ->].
  assert (Ph : q' = phase (vals p) d).
  { unfold phase. rewrite <- Eq. replace 1.57 with (157 / 100) by lra.
    destruct (r_ltb (157 / 100) q) eqn:B; rbool; destruct (Rlt_dec (157 / 100) q); try lra.
    - apply bind_inv in Eq' as [t [Et Eq']]. apply r_div_inv in Et as [_ ->]. inversion Eq'.
      replace 3.14 with (314 / 100) by lra. replace 2.4649 with (24649 / 10000) by lra. reflexivity.
    - inversion Eq'. reflexivity. }
  split; [intros k I; cbn in I; repeat destruct I as [<-|I]; try assumption; destruct I|].
  rewrite pow2_sqrt in Em2 by (exact (cnorm2_pos (cos q' + fst r, - sin q' + snd r))). injection Em2 as Em2. rewrite <- Ph.
  assert (Q : m2 = cnorm2 (cplus (cos q', - sin q') r)) by (symmetry; exact Em2).
  rewrite <- Q. split; [|exact Pl]. inversion H. unfold two_ray. rewrite <- Q. lra.
Qed.
Lemma alos_value (d a : R) (p : prop RA) : alos RA d p = Ok a ->
  values p alos_keys (vals p) /\
  a = vals p WIS * two_ray (reflection (vals p) d) (phase (vals p) d) + (1 - vals p WIS) * (vals p EMD * d + vals p AED).
Proof.
  intro H. unfold alos in H. apply bind_inv in H as [[s r] [Er H]].
  destruct (alos_refl_inv d p s r Er) as (V & _ & _ & _ & _ & ->).
  getv H emd. getv H aed. apply bind_inv in H as [f [Ef H]]. getv H wis.
  destruct (alos_field_inv d _ p f Ef) as (_ & -> & _). split.
  - intros k I. unfold alos_keys in I. cbn in I. repeat destruct I as [<-|I]; try assumption; try (apply V; cbn; tauto). destruct I.
  - runfold. inversion H. ring.
Qed.
Lemma cnorm2_quot x y : cnorm2 y <> 0 -> cnorm2 (cquot x y) = cnorm2 x / cnorm2 y.
Proof.
  intro N. unfold cquot. rewrite cnorm2_scale. destruct x as [a b], y as [c e]. unfold cnorm2 in *. cbn [fst snd] in *. field. exact N.
Qed.
Lemma graze_le v d : 0 < d ^ 2 + (v HE0 + v HE1) ^ 2 -> graze v d <= 1.
Proof.
  intro P. unfold graze. assert (0 < sqrt (d ^ 2 + (v HE0 + v HE1) ^ 2)) by (apply sqrt_lt_R0; exact P).
  apply (Rmult_le_reg_r (sqrt (d ^ 2 + (v HE0 + v HE1) ^ 2))); [assumption|]. unfold Rdiv. rewrite Rmult_assoc, Rinv_l by lra.
  rewrite Rmult_1_r, Rmult_1_l. apply Rle_trans with (Rabs (v HE0 + v HE1)); [apply Rle_abs|].
  rewrite <- sqrt_Rsqr_abs. apply sqrt_le_1_alt. unfold Rsqr. nra.
Qed.
Lemma reflection_le (d : R) (p : prop RA) s r : alos_refl RA d p = Ok (s, r) -> let v := vals p in
  0 <= v ZGR -> 0 <= v WN -> 0 <= v HE0 + v HE1 -> cnorm2 (reflection v d) <= 1.
Proof.
  intros H v Hz Hw Hh. destruct (alos_refl_inv d p s r H) as (_ & Pi & Ps & Nc & Sc & _). fold v in Pi, Ps, Nc, Sc.
  assert (Pg : 0 <= graze v d).
  { unfold graze. apply Rmult_le_pos; [exact Hh|]. left. apply Rinv_0_lt_compat. apply sqrt_lt_R0. exact Ps. }
  assert (G1 := graze_le v d Ps).
  assert (Pr : 0 <= roughness v d).
  { unfold roughness. apply Rmult_le_pos; [|left; apply exp_pos]. lra. }
  unfold reflection. set (rr := rough_reflection v d) in *. destruct (Rlt_dec (cnorm2 rr) (Rmax 0.25 (graze v d))) as [L|L].
  - destruct (Sc L) as [N0 P0]. rewrite cnorm2_scale, pow2_sqrt by exact P0. field_simplify; [|exact N0]. lra.
  - unfold rr, rough_reflection. rewrite cnorm2_scale, cnorm2_quot by exact Nc.
    assert (Pe : 0 < exp (- Rmin 10 (v WN * roughness v d * graze v d)) <= 1).
    { split; [apply exp_pos|]. rewrite <- exp_0. assert (0 <= Rmin 10 (v WN * roughness v d * graze v d)).
      { apply Rmin_glb; [lra|]. apply Rmult_le_pos; [apply Rmult_le_pos|]; assumption. }
      destruct (Req_dec (Rmin 10 (v WN * roughness v d * graze v d)) 0) as [E|E]; [rewrite E, Ropp_0; lra|].
      left. apply exp_increasing. lra. }
    set (e := exp _) in *.
    assert (Pn : 0 < cnorm2 (graze v d + v ZGR, v ZGI)) by (pose proof (cnorm2_pos (graze v d + v ZGR, v ZGI)); lra).
    assert (Q : 0 <= cnorm2 (graze v d - v ZGR, - v ZGI) / cnorm2 (graze v d + v ZGR, v ZGI) <= 1).
    { split; [apply Rmult_le_pos; [apply cnorm2_pos | left; apply Rinv_0_lt_compat; exact Pn]|].
      apply (Rmult_le_reg_r (cnorm2 (graze v d + v ZGR, v ZGI))); [exact Pn|]. unfold Rdiv. rewrite Rmult_assoc, Rinv_l by lra.
      unfold cnorm2. cbn [fst snd]. nra. }
    simpl. nra.
Qed.
Lemma two_ray_ge r ph : cnorm2 r <= 1 -> -4.343 * ln 4 <= two_ray r ph.
Proof.
  intro H. unfold two_ray. destruct r as [a b]. unfold cnorm2, cplus in *. cbn [fst snd] in *.
  pose proof (sin2_cos2 ph) as S. unfold Rsqr in S. set (c := cos ph) in *. set (s := sin ph) in *.
  assert (K : (c * a - s * b) <= 1).
  { assert ((c * a - s * b) * (c * a - s * b) + (c * b + s * a) * (c * b + s * a) = a * a + b * b).
    { replace (a * a + b * b) with ((s * s + c * c) * (a * a + b * b)) by (rewrite S; ring). ring. }
    pose proof (Rle_0_sqr (c * b + s * a)) as W. unfold Rsqr in W. set (u := c * a - s * b) in *.
    destruct (Rle_dec u 1); [assumption|]. assert (1 < u * u) by nra. lra. }
  assert (B : (c + a) * (c + a) + (- s + b) * (- s + b) <= 4) by nra.
  destruct (Rlt_dec 0 ((c + a) * (c + a) + (- s + b) * (- s + b))) as [P|P].
  - pose proof (ln_le_mono _ _ P B). lra.
  - assert (Z : forall x, ~ 0 < x -> ln x = 0) by (intros x N; unfold ln; destruct (Rlt_dec 0 x); [contradiction | reflexivity]).
    rewrite (Z _ P).
    assert (0 < ln 4) by (rewrite <- ln_1; apply ln_increasing; lra). lra.
Qed.
Lemma alos_bound (d a : R) (p : prop RA) : alos RA d p = Ok a -> let v := vals p in
  0 <= v ZGR -> 0 <= v WN -> 0 <= v HE0 + v HE1 ->
  cnorm2 (reflection v d) <= 1 /\ -4.343 * ln 4 <= two_ray (reflection v d) (phase v d).
Proof.
  intros H v Hz Hw Hh. unfold alos in H. apply bind_inv in H as [[s r] [Er _]].
  assert (L := reflection_le d p s r Er Hz Hw Hh). split; [exact L | apply two_ray_ge; exact L].
Qed.

(** Swapping the effective heights. *)
Lemma alos_sym (d h0 h1 : R) (p : prop RA) : pn p HE0 = Some h0 -> pn p HE1 = Some h1 ->
  alos RA d (setn (setn p HE0 (h1 : num RA)) HE1 (h0 : num RA)) = alos RA d p.
Proof.
  intros E0 E1. assert (G0 : getn p HE0 = Ok h0) by (apply pn_getn; exact E0). assert (G1 : getn p HE1 = Ok h1) by (apply pn_getn; exact E1).
  set (q := setn _ HE1 _).
  assert (K : alos_refl RA d q = alos_refl RA d p).
  { unfold alos_refl, q. dsimp. rewrite G0, G1. cbn [bind]. cbn [RA n_add]. rewrite (Rplus_comm h1 h0). reflexivity. }
  assert (F : forall r, alos_field RA d r q = alos_field RA d r p).
  { intro r. unfold alos_field, q. dsimp. rewrite G0, G1. destruct (getn p WN) as [wn|]; [|reflexivity]. cbn [bind]. cbn [RA n_mul].
    replace (wn * h1 * h0) with (wn * h0 * h1) by (cbn in *; ring). reflexivity. }
  unfold alos. rewrite K. unfold q at 1 2 4. dsimp.
  apply so_eq. apply so_bind_same. intros [s r]. apply so_bind_same. intro emd. apply so_bind_same. intro aed. rewrite F.
  apply so_refl. reflexivity.
Qed.

(** ** ascat *)
Lemma ascat_keeps_h0s (A : arith) (d h0s the0 the1 gme wn he0 he1 : num A) (p p' : prop A) :
  pn p H0S = Some h0s -> pn p THE0 = Some the0 -> pn p THE1 = Some the1 -> pn p GME = Some gme -> pn p WN = Some wn ->
  pn p HE0 = Some he0 -> pn p HE1 = Some he1 ->
  (h0s >? #15)%num = false -> @n_eqb A #1001%num #1001%num = true ->
  (let r := #2 * wn * (the0 + the1 + d * gme) in ((r * he0 <? 2 // 10) && (r * he1 <? 2 // 10))%bool = true)%num ->
  ascat A d p = Ok p' -> pn p' H0S = Some h0s.
Proof.
  intros E1 E2 E3 E4 E5 E6 E7 B1 B2 B3 H. cbv zeta in B3.
  apply pn_getn in E1, E2, E3, E4, E5, E6, E7. unfold ascat in H. rewrite E1 in H. cbn [bind] in H. rewrite B1 in H.
  rewrite E2, E3, E4, E5, E6, E7 in H. cbn [bind] in H. rewrite B3 in H.
  apply bind_inv in H as [[h0 q] [Eq H]]. apply bind_inv in Eq as [x [Ex Eq]]. dsimp_in Eq. rewrite B2 in Eq. cbn [negb] in Eq.
  inversion Eq; subst h0 q; clear Eq. repeat (apply bind_inv in H as [? [_ H]]). inversion H. cbn. exact (proj1 (pn_getn A p H0S h0s) E1).
Qed.
Definition case_low : prop TA :=
  setzs [(MDP, 1); (KWX, 0)]%Z
    (@setns TA [(HG0, PI 2); (HG1, PI 2); (HE0, PI 2); (HE1, PI 2); (DL0, PI 5800); (DL1, PI 5800); (THE0, L (-5) 10000);
            (THE1, L (-5) 10000); (WN, PI 1); (ENS, PI 301); (DH, PI 50); (GME, L 117700 1000000000000);
            (ZGR, L 2415 10000); (ZGI, L (-144) 1000)] (empty_prop TA)).
(** The common value of r1 and r2 (equal heights) at distance [d]. *)
Definition low_r (d : num TA) : num TA := ((PI 2 : num TA) * PI 1 * (L (-5) 10000 + L (-5) 10000 + d * L 117700 1000000000000) * PI 2)%num.
Lemma scatter_accepted : exists p0 p1 (aed emd a : num TA), lrprop TA (PI 0) case_low = Ok p0 /\
  lrprop TA (PI 300000) case_low = Ok p1 /\ pz p1 KWX = Some 0%Z /\
  pn p0 DLA = Some (PI 11600) /\ (low_r (PI 211600) <? L 2 10)%num = true /\ (low_r (PI 411600) <? L 2 10)%num = true /\
  pn p0 AED = Some aed /\ pn p0 EMD = Some emd /\ pn p1 AREF = Some a /\
  (a + PI 12 <? aed + emd * PI 300000)%num = true.
Proof.
  assert (H : on_ok (lrprop TA (PI 0) case_low) (fun p0 => on_ok (lrprop TA (PI 300000) case_low) (fun p1 =>
    has_n p0 AED (fun aed => has_n p0 EMD (fun emd => has_n p1 AREF (fun a =>
      (a + PI 12 <? aed + emd * PI 300000)%num && has_z p1 KWX 0 && match pn p0 DLA with Some (PI 11600) => true | _ => false end))))) = true)
    by (vm_compute; reflexivity).
  apply on_ok_inv in H as [p0 [E0 H]]. apply on_ok_inv in H as [p1 [E1 H]].
  apply has_n_inv in H as [aed [K1 H]]. apply has_n_inv in H as [emd [K2 H]]. apply has_n_inv in H as [a [K3 H]].
  apply andb_true_iff in H as [H H3]. apply andb_true_iff in H as [H1 H2]. exists p0, p1, aed, emd, a.
  do 2 (split; [assumption|]). split; [apply has_z_inv; exact H2|]. split.
  { clear - H3. destruct (pn p0 DLA) as [z|]; [|discriminate].
    assert (K : forall y : num TA, match y with PI 11600 => true | _ => false end = true -> y = PI 11600).
    { intros [] ; try discriminate. intro Q. repeat (match type of Q with match ?t with _ => _ end = _ => destruct t end; try discriminate). reflexivity. }
    f_equal. apply K. exact H3. }
  split; [vm_compute; reflexivity|]. split; [vm_compute; reflexivity|]. repeat (split; [assumption|]). exact H1.
Qed.
Lemma alos_full (d a : R) (p : prop RA) : alos RA d p = Ok a ->
  exists v, values p [DH; HE0; HE1; ZGR; ZGI; WN; EMD; AED; WIS] v /\
    let field := two_ray (reflection v d) (phase v d) in
    a = v WIS * field + (1 - v WIS) * (v EMD * d + v AED) /\
    (cnorm2 (reflection v d) <= 1 -> -4.343 * ln 4 <= field) /\
    (0 <= v ZGR -> 0 <= v WN -> 0 <= v HE0 + v HE1 -> cnorm2 (reflection v d) <= 1).
Proof.
  intro H. destruct (alos_value d a p H) as [V E]. exists (vals p). split; [exact V|]. cbv zeta. split; [exact E|].
  split; [apply two_ray_ge|]. intros. exact (proj1 (alos_bound d a p H ltac:(assumption) ltac:(assumption) ltac:(assumption))).
Qed.
Lemma adiff_between (d a : R) (p p' : prop RA) : d <> 0 -> adiff RA d p = Ok (a, p') ->
  exists v, values p [THA; GME; DLA; WN; DL0; DL1; QK; XHT; AHT; WD1; XD1; DH; AFO] v /\
    let w := diff_weight v d in
    0 < w <= 1 /\ 12.04 < double_knife v d /\
    a = w * rounded_earth v d + (1 - w) * double_knife v d + v AFO /\
    Rmin (rounded_earth v d) (double_knife v d) <= a - v AFO <= Rmax (rounded_earth v d) (double_knife v d).
Proof.
  intros N H. destruct (adiff_value d a p p' N H) as (v & V & W & K & E). exists v. split; [exact V|]. cbv zeta in *.
  split; [exact W|]. split; [exact K|]. split; [exact E|]. rewrite E.
  unfold Rmin, Rmax. destruct (Rle_dec (rounded_earth v d) (double_knife v d)); split; nra.
Qed.
