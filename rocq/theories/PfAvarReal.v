(** avar over the reals: value of the quantile, invariant of the cached entries, totality. *)
From Verif Require Import Frame SpecLr PfFrame PfLrGen PfRegime PfAvarGen PfAvarInc PfAvarApi PfAtten PfQuant SpecQuant.
Open Scope R_scope.

(** ** The quantile *)
Definition qv (p : prop RA) : nkey -> R := vals p.
Lemma time_dev_dv (v : nkey -> R) z : time_dev v z = dv (v SGTM) (v SGTP) (v SGTD) (v ZD) (v TGTD) z.
Proof. reflexivity. Qed.
Lemma av_sgt_inv (z s : R) (p : prop RA) : av_sgt RA z p = Ok s -> s = time_dev (vals p) z.
Proof.
  unfold av_sgt, time_dev. cbn [n_ltb n_leb RA n_Z]. intro H. unfold r_ltb in H. destruct (Rlt_dec z 0) as [N|N].
  - apply vals_get in H as [-> _]. reflexivity.
  - getv H zd. cbn [n_leb RA] in H. unfold r_leb in H. destruct (Rle_dec z (vals p ZD)) as [M|M].
    + apply vals_get in H as [-> _]. reflexivity.
    + getv H a. getv H b. apply bind_inv in H as [t [E H]]. apply r_div_inv in E as [_ ->]. inversion H. reflexivity.
Qed.
Lemma av_compress_inv (a b : R) : av_compress RA a = Ok b -> b = squash a.
Proof.
  unfold av_compress, squash. cbn [n_ltb RA n_Z]. unfold r_ltb. destruct (Rlt_dec a 0).
  - intro H. apply r_div_inv in H as [_ ->]. reflexivity.
  - intro H. inversion H. reflexivity.
Qed.
Lemma ok_inj {S} (a b : S) : Ok a = Ok b -> b = a.
Proof. intro H. inversion H. auto. Qed.
Lemma ok_pair {S T} (a c : S) (b d : T) : Ok (a, b) = Ok (c, d) -> c = a /\ d = b.
Proof. intro H. inversion H. auto. Qed.
Lemma av_raw_inv (k : Z) (t l c s a : R) (p : prop RA) : av_raw RA k t l c s p = Ok a ->
  let v := vals p in let w := v VS0 + (s * t) ^ 2 / (7.8 + c ^ 2) + (v SGL * l) ^ 2 / (24 + c ^ 2) in
  a = v AREF - v VMD - (if (k =? 0)%Z then c * sqrt (s ^ 2 + v SGL ^ 2 + w)
      else if (k =? 1)%Z then s * t + c * sqrt (v SGL ^ 2 + w)
      else if (k =? 2)%Z then t * sqrt (s ^ 2 + v SGL ^ 2) + c * sqrt w
      else s * t + v SGL * l + c * sqrt w).
Proof.
  intros H v w. unfold av_raw in H. getv H vs0. getv H sgl. fold v in H.
  apply bind_inv in H as [n1 [E1 H]]. apply bind_inv in H as [z2 [E2 H]]. apply bind_inv in H as [u1 [E3 H]].
  apply bind_inv in H as [n2 [E4 H]]. apply bind_inv in H as [u2 [E5 H]]. apply bind_inv in H as [s2 [E6 H]].
  apply bind_inv in H as [g2 [E7 H]]. runfold. rewrite r_powZ_2 in E1, E2, E4, E6, E7.
  apply ok_inj in E1, E2, E4, E6, E7. subst n1 z2 n2 s2 g2.
  apply r_div_inv in E3 as [_ ->]. apply r_div_inv in E5 as [_ ->].
  replace (78 / 10) with 7.8 in H by lra. fold w in H.
  apply bind_inv in H as [[yr sgc] [Ey H]]. getv H aref. getv H vmd. fold v in H. apply ok_inj in H; subst a.
  destruct (k =? 0)%Z; [|destruct (k =? 1)%Z; [|destruct (k =? 2)%Z]].
  - apply bind_inv in Ey as [x [Ex Ey]]. apply r_sqrt_inv in Ex as [_ ->]. apply ok_pair in Ey as [-> ->]. ring.
  - apply bind_inv in Ey as [x [Ex Ey]]. apply r_sqrt_inv in Ex as [_ ->]. apply ok_pair in Ey as [-> ->]. ring.
  - apply bind_inv in Ey as [y [Ex Ey]]. apply r_sqrt_inv in Ex as [_ ->]. apply bind_inv in Ey as [x [Ex Ey]]. apply r_sqrt_inv in Ex as [_ ->]. apply ok_pair in Ey as [-> ->]. ring.
  - apply bind_inv in Ey as [x [Ex Ey]]. apply r_sqrt_inv in Ex as [_ ->]. apply ok_pair in Ey as [-> ->]. ring.
Qed.
Lemma av_quant_inv (t l c a : R) (p q : prop RA) : av_quant RA t l c p = Ok (a, q) ->
  exists k, pz q KDV = Some k /\ a = squash (raw_quantile (vals q) k t l c).
Proof.
  intro H. assert (F := av_quant_frame RA t l c p (a, q) H). cbn [snd] in F.
  unfold av_quant in H. apply bind_inv in H as [k [K H]]. exists k.
  assert (PK : pz q KDV = Some k). { destruct F as [_ [F _]]. rewrite F by (cbn; intuition congruence). apply pz_getz. exact K. }
  split; [exact PK|].
  assert (VE : forall x, vals q x = vals p x) by (intro x; unfold vals; destruct F as [F _]; rewrite F by (intros []); reflexivity).
  destruct (av_fold RA k t l c) as [[zt zl] zc] eqn:EF.
  apply bind_inv in H as [p' [E H]]. apply bind_inv in H as [s [Es H]]. apply bind_inv in H as [r [Er H]]. apply bind_inv in H as [b [Eb H]].
  inversion H; subst b p'; clear H E. apply av_sgt_inv in Es. apply av_compress_inv in Eb. apply av_raw_inv in Er. cbv zeta in Er.
  rewrite Eb. f_equal. rewrite Er. unfold raw_quantile, situation_var. unfold av_fold in EF. cbv zeta.
  destruct (k =? 0)%Z; [|destruct (k =? 1)%Z; [|destruct (k =? 2)%Z]]; inversion EF; subst; reflexivity.
Qed.
Lemma third_R : (#1 /? #3 : res (num RA))%num = Ok (1 / 3).
Proof. cbn. unfold r_div. destruct (Req_EM_T 3 0); [lra | reflexivity]. Qed.
Lemma avar_inv (t l c a : R) (p q : prop RA) : avar RA t l c p = Ok (a, q) ->
  exists p1 k, av_refresh RA (1 / 3) p = Ok p1 /\ av_quant RA t l c p1 = Ok (a, q) /\ pz q KDV = Some k /\
    a = squash (raw_quantile (vals q) k t l c).
Proof.
  intro H. unfold avar in H. rewrite third_R in H. cbn [bind] in H. apply bind_inv in H as [p1 [E H]].
  destruct (av_quant_inv _ _ _ _ _ _ H) as [k [K V]]. exists p1, k. auto.
Qed.

(** ** The cached entries *)
Definition row_ok (p : prop RA) : Prop := exists k, (1 <= k <= 7)%Z /\ map (pn p) climate_keys = map Some (climate_row k).
Definition has_ge (p : prop RA) (k : nkey) : Prop := exists x : R, pn p k = Some x /\ 0 <= x.
Definition gain_ok (p : prop RA) : Prop := has_ge p GM /\ has_ge p GP.
Definition dexa_ok (p : prop RA) : Prop := exists x : R, pn p DEXA = Some x /\ 0 < x.
Definition stat_ok (p : prop RA) : Prop :=
  has_ge p SGTM /\ has_ge p SGTP /\ pn p SGTD = Some (vals p SGTP * vals p CSD1) /\
  pn p TGTD = Some ((vals p SGTP - vals p SGTD) * vals p ZD) /\ has_ge p VS0 /\
  (exists x, pn p SGL = Some x) /\ (exists x, pn p VMD = Some x).
Definition cache_ok (p : prop RA) : Prop := row_ok p /\ gain_ok p /\ dexa_ok p /\ stat_ok p.

Definition same_n (ks : list nkey) (p q : prop RA) : Prop := forall k, In k ks -> pn q k = pn p k.
Lemma row_same p q : same_n climate_keys p q -> row_ok p -> row_ok q.
Proof. intros S [k [K M]]. exists k. split; [exact K|]. rewrite <- M. apply map_ext_in. intros x I. apply S. exact I. Qed.
Lemma gain_same p q : same_n [GM; GP] p q -> gain_ok p -> gain_ok q.
Proof. intros S [A B]. unfold gain_ok, has_ge in *. rewrite !S by (cbn; auto). auto. Qed.
Lemma dexa_same p q : same_n [DEXA] p q -> dexa_ok p -> dexa_ok q.
Proof. intros S A. unfold dexa_ok in *. rewrite !S by (cbn; auto). auto. Qed.
Lemma stat_same p q : same_n [SGTM; SGTP; SGTD; TGTD; VS0; SGL; VMD; CSD1; ZD] p q -> stat_ok p -> stat_ok q.
Proof. intros S A. unfold stat_ok, has_ge, vals in *. rewrite !S by (cbn; tauto). exact A. Qed.
Lemma same_sub ks ks' p q : subn ks' ks = true -> same_n ks p q -> same_n ks' p q.
Proof. intros S H k I. apply H. eapply subn_In; eassumption. Qed.
Lemma same_frame nk zk bk ks p q : same_except nk zk bk p q -> forallb (fun k => negb (memn k nk)) ks = true -> same_n ks p q.
Proof.
  intros [F _] S k I. apply F. apply memn_nIn. rewrite forallb_forall in S. specialize (S k I). apply negb_true_iff in S. exact S.
Qed.
Lemma cache_same p q : same_n cache_n p q -> cache_ok p -> cache_ok q.
Proof.
  intros S (A & B & C & D). split; [|split; [|split]].
  - eapply row_same; [|exact A]. eapply same_sub; [|exact S]. reflexivity.
  - eapply gain_same; [|exact B]. eapply same_sub; [|exact S]. reflexivity.
  - eapply dexa_same; [|exact C]. eapply same_sub; [|exact S]. reflexivity.
  - eapply stat_same; [|exact D]. eapply same_sub; [|exact S]. reflexivity.
Qed.

(** What a climate row guarantees. *)
Definition row_facts (v : nkey -> R) : Prop :=
  (0 < v YV1 /\ 0 < v YV3) /\ (0 < v CSM1 /\ 0 < v CSM2 /\ 0 < v YSM1 /\ 0 < v YSM3) /\
  (0 < v CSP1 /\ 0 < v CSP2 /\ 0 < v YSP1 /\ 0 < v YSP3) /\ (0 < v CSD1 <= 1.518) /\ 0 < v ZD /\
  (0 < v CFM1 /\ 0 <= v CFM2) /\ (0 < v CFP1 /\ 0 <= v CFP2).
Lemma row_vals p : row_ok p -> values p climate_keys (vals p) /\ row_facts (vals p).
Proof.
  intros [k [K M]]. 
  assert (D : (k = 1 \/ k = 2 \/ k = 3 \/ k = 4 \/ k = 5 \/ k = 6 \/ k = 7)%Z) by lia.
  split.
  - intros x I. unfold vals. assert (E : exists y, pn p x = Some y); [|destruct E as [y ->]; reflexivity].
    assert (J : In (pn p x) (map (pn p) climate_keys)) by (apply in_map; exact I). rewrite M in J. apply in_map_iff in J as [y [<- _]]. eauto.
  - unfold row_facts, vals.
    destruct D as [->|[->|[->|[->|[->|[->| ->]]]]]]; cbn [map climate_keys climate_row] in M;
      injection M as E1 E2 E3 E4 E5 E6 E7 E8 E9 E10 E11 E12 E13 E14 E15 E16 E17 E18 E19 E20 E21 E22 E23;
      rewrite E3, E5, E6, E7, E8, E10, E11, E12, E13, E15, E16, E17, E18, E19, E21, E22; cbn; lra.
Qed.

Definition curve_val (c1 c2 x1 x2 x3 de : R) : R := (c1 + c2 / (1 + ((de - x2) / x3) ^ 2)) * (de / x1) ^ 2 / (1 + (de / x1) ^ 2).
Lemma curv_ok (c1 c2 x1 x2 x3 de : R) : 0 < x1 -> 0 < x3 -> curv RA c1 c2 x1 x2 x3 de = Ok (curve_val c1 c2 x1 x2 x3 de).
Proof.
  intros A B. unfold curv. runfold. rewrite r_div_ok by lra. cbn [bind]. rewrite r_powZ_2. cbn [bind].
  pose proof (pow2_ge_0 ((de - x2) / x3)). pose proof (pow2_ge_0 (de / x1)).
  rewrite r_div_ok by lra. cbn [bind]. rewrite r_div_ok by lra. cbn [bind]. rewrite r_powZ_2. cbn [bind].
  rewrite r_div_ok by lra. reflexivity.
Qed.
Lemma curve_nonneg c1 c2 x1 x2 x3 de : 0 <= c1 -> 0 <= c2 -> 0 <= curve_val c1 c2 x1 x2 x3 de.
Proof.
  intros A B. unfold curve_val. pose proof (pow2_ge_0 ((de - x2) / x3)). pose proof (pow2_ge_0 (de / x1)).
  assert (0 <= c2 / (1 + ((de - x2) / x3) ^ 2)) by (apply Rmult_le_pos; [assumption | left; apply Rinv_0_lt_compat; lra]).
  apply Rmult_le_pos; [apply Rmult_le_pos; lra | left; apply Rinv_0_lt_compat; lra].
Qed.
Lemma av_gain_ok (c1 c2 c3 q : R) : av_gain RA c1 c2 c3 q = Ok (c1 + c2 / ((c3 * q) ^ 2 + 1)).
Proof.
  unfold av_gain. runfold. rewrite r_powZ_2. cbn [bind]. pose proof (pow2_ge_0 (c3 * q)). rewrite r_div_ok by lra. reflexivity.
Qed.
Lemma gain_nonneg c1 c2 c3 q : 0 < c1 -> 0 <= c2 -> 0 <= c1 + c2 / ((c3 * q) ^ 2 + 1).
Proof.
  intros A B. pose proof (pow2_ge_0 (c3 * q)).
  assert (0 <= c2 / ((c3 * q) ^ 2 + 1)) by (apply Rmult_le_pos; [assumption | left; apply Rinv_0_lt_compat; lra]). lra.
Qed.
Ltac inks := cbn; repeat (first [left; reflexivity | right]).

Lemma row_get p (k : nkey) : row_ok p -> In k climate_keys -> getn p k = Ok (vals p k).
Proof. intros R I. destruct (row_vals p R) as [V _]. unfold getn. rewrite (V k I). reflexivity. Qed.
Lemma av_freq_run (p : prop RA) (wn : R) : row_ok p -> pn p WN = Some wn -> 0 < wn -> exists q, av_freq RA p = Ok q /\ gain_ok q.
Proof.
  intros R W P. destruct (row_vals p R) as [V F]. unfold av_freq. rewrite (proj2 (pn_getn RA p WN wn) W). cbn [bind]. runfold.
  rewrite r_log_ok by lra. cbn [bind]. rewrite !row_get by (try exact R; inks). cbn [bind]. rewrite av_gain_ok. cbn [bind]. dsimp.
  rewrite !row_get by (try exact R; inks). cbn [bind]. rewrite av_gain_ok. cbn [bind]. eexists. split; [reflexivity|].
  split; (eexists; split; [reflexivity|]); apply gain_nonneg; apply F.
Qed.
Lemma av_freq_gain p q : row_ok p -> av_freq RA p = Ok q -> gain_ok q.
Proof.
  intros R H. assert (H' := H). unfold av_freq in H. getv H wn. apply bind_inv in H as [x [E _]]. apply r_log_inv in E as [E _].
  runfold. destruct (av_freq_run p (vals p WN) R P ltac:(lra)) as [q' [E' G]]. rewrite E' in H'. inversion H'. subst. exact G.
Qed.
Lemma av_he_run (p : prop RA) (h0 h1 wn : R) : pn p HE0 = Some h0 -> pn p HE1 = Some h1 -> pn p WN = Some wn ->
  0 <= h0 -> 0 <= h1 -> 0 < wn -> exists q, av_he RA ((1 / 3)%R : num RA) p = Ok q.
Proof.
  intros A B C P0 P1 P2. unfold av_he. rewrite (proj2 (pn_getn RA p HE0 h0) A), (proj2 (pn_getn RA p HE1 h1) B), (proj2 (pn_getn RA p WN wn) C).
  cbn [bind]. runfold. rewrite r_sqrt_ok by lra. cbn [bind]. rewrite r_sqrt_ok by lra. cbn [bind]. rewrite r_div_ok by lra. cbn [bind].
  rewrite r_pow_ok. 2: { apply Rdiv_lt_0_compat; lra. } cbn [bind]. eauto.
Qed.
Lemma av_he_dexa p q : av_he RA ((1 / 3)%R : num RA) p = Ok q -> dexa_ok q.
Proof.
  intro H. unfold av_he in H. getv H h0. apply bind_inv in H as [s0 [E0 H]]. getv H h1. apply bind_inv in H as [s1 [E1 H]].
  getv H wn. apply bind_inv in H as [t [Et H]]. apply bind_inv in H as [u [Eu H]]. inversion H; subst q; clear H. runfold.
  apply r_sqrt_inv in E0 as [_ ->]. apply r_sqrt_inv in E1 as [_ ->]. apply r_div_inv in Et as [Nw ->].
  eexists. split; [reflexivity|]. cbn.
  assert (0 < u).
  { apply r_pow_inv in Eu as [[_ ->]|[[Z _]|[Z _]]]; [unfold Rpower; apply exp_pos| |];
    (exfalso; apply Rmult_integral in Z; destruct Z as [Z|Z]; [lra | revert Z; apply Rinv_neq_0_compat; exact Nw]). }
  pose proof (sqrt_pos (18000000 / 1 * vals p HE0)). pose proof (sqrt_pos (18000000 / 1 * vals p HE1)). lra.
Qed.

(** The distance-dependent part. *)
Lemma av_de_run (p : prop RA) (d : R) : pn p DIST = Some d -> dexa_ok p -> 0 <= d -> exists de, av_de RA p = Ok de.
Proof.
  intros D [x [X P]] H. unfold av_de. rewrite (proj2 (pn_getn RA p DIST d) D), (proj2 (pn_getn RA p DEXA x) X). cbn [bind]. runfold.
  destruct (r_ltb d x); [rewrite r_div_ok by lra|]; eauto.
Qed.
Lemma av_dist_stat p q : row_ok p -> gain_ok p -> av_dist RA p = Ok q -> stat_ok q.
Proof.
  intros R [[gm [Gm Pm]] [gp [Gp Pp]]] H. destruct (row_vals p R) as [V F]. unfold av_dist in H. apply bind_inv in H as [de [_ H]].
  rewrite !(row_get p) in H by (try exact R; inks). cbn [bind] in H.
  rewrite curv_ok in H by apply F. cbn [bind] in H. dsimp_in H.
  rewrite !(row_get p) in H by (try exact R; inks). cbn [bind] in H.
  rewrite curv_ok in H by apply F. cbn [bind] in H. rewrite (proj2 (pn_getn RA p GM gm) Gm) in H. cbn [bind] in H. dsimp_in H.
  rewrite !(row_get p) in H by (try exact R; inks). cbn [bind] in H.
  rewrite curv_ok in H by apply F. cbn [bind] in H. dsimp_in H. rewrite (proj2 (pn_getn RA p GP gp) Gp) in H. cbn [bind] in H. dsimp_in H.
  rewrite !(row_get p) in H by (try exact R; inks). cbn [bind] in H. dsimp_in H.
  rewrite !(row_get p) in H by (try exact R; inks). cbn [bind] in H. dsimp_in H.
  apply bind_inv in H as [wl [_ H]]. apply bind_inv in H as [sgl [_ H]]. dsimp_in H. apply bind_inv in H as [ws [_ H]].
  apply bind_inv in H as [vs0 [E H]]. apply ok_inj in H. subst q.
  assert (0 <= vs0).
  { destruct ws; [apply ok_inj in E; subst vs0; cbn; lra|]. apply bind_inv in E as [t [_ E]]. apply bind_inv in E as [e [_ E]].
    runfold. rewrite r_powZ_2 in E. apply ok_inj in E. subst vs0. apply pow2_ge_0. }
  assert (C1 := curve_nonneg (vals p CSM1) (vals p CSM2) (vals p YSM1) (vals p YSM2) (vals p YSM3) de ltac:(left; apply F) ltac:(left; apply F)).
  assert (C2 := curve_nonneg (vals p CSP1) (vals p CSP2) (vals p YSP1) (vals p YSP2) (vals p YSP3) de ltac:(left; apply F) ltac:(left; apply F)).
  set (cm := curve_val (vals p CSM1) _ _ _ _ _) in *. set (cp := curve_val (vals p CSP1) _ _ _ _ _) in *. set (cv := curve_val (vals p CV1) _ _ _ _ _). clearbody cm cp cv.
  split; [|split; [|split; [|split; [|split; [|split]]]]]; try (eexists; split; [reflexivity|]).
  - cbn. apply Rmult_le_pos; assumption.
  - cbn. apply Rmult_le_pos; assumption.
  - reflexivity.
  - reflexivity.
  - assumption.
  - eexists; reflexivity.
  - eexists; reflexivity.
Qed.
Lemma av_dist_run (p : prop RA) (d dh wn : R) : row_ok p -> gain_ok p -> dexa_ok p -> pn p DIST = Some d -> pn p DH = Some dh -> pn p WN = Some wn ->
  0 <= d -> 0 <= dh -> 0 < wn -> (exists b, pb p WS = Some b) -> (exists b, pb p WL = Some b) -> exists q, av_dist RA p = Ok q.
Proof.
  intros R [[gm [Gm Pm]] [gp [Gp Pp]]] X D H W Pd Ph Pw [ws Ws] [wl Wl]. destruct (row_vals p R) as [V F]. unfold av_dist.
  destruct (av_de_run p d D X Pd) as [de ->]. cbn [bind].
  repeat (rewrite !(row_get p) by (try exact R; inks); cbn [bind]; try (rewrite curv_ok by apply F; cbn [bind]); dsimp;
    rewrite ?(proj2 (pn_getn RA p GM gm) Gm), ?(proj2 (pn_getn RA p GP gp) Gp); cbn [bind]; dsimp).
  rewrite (proj2 (pb_getb RA p WL wl) Wl), ?(proj2 (pb_getb RA p WS ws) Ws). cbn [bind].
  rewrite ?(proj2 (pn_getn RA p DIST d) D), ?(proj2 (pn_getn RA p DH dh) H), ?(proj2 (pn_getn RA p WN wn) W). cbn [bind].
  assert (exists z, dh_at RA d dh = Ok z /\ 0 <= z) as [z [Ez Pz]].
  { unfold dh_at. runfold. rewrite r_div_ok by lra. cbn [bind]. eexists. split; [reflexivity|].
    assert (exp (- d / (50000 / 1)) <= exp 0). { destruct Pd as [Pd|Pd]; [left; apply exp_increasing; lra | right; f_equal; lra]. } rewrite exp_0 in H0.
    apply Rmult_le_pos; lra. }
  rewrite Ez. cbn [bind].
  assert (exists sgl, (if wl then Ok #0 else (#10 * (z * wn) /? (z * wn + #13)))%num = (Ok sgl : res (num RA))) as [sgl ES].
  { destruct wl; [eauto|]. runfold. rewrite r_div_ok by nra. eauto. }
  destruct wl; cbn [bind] in *; rewrite ?ES; cbn [bind]; dsimp; rewrite (proj2 (pb_getb RA p WS ws) Ws); cbn [bind];
    (destruct ws; cbn [bind]; [eauto|]; runfold; rewrite r_div_ok by lra; cbn [bind]; rewrite r_powZ_2; cbn [bind]; eauto).
Qed.

Lemma av_klim_row p q : av_klim RA p = Ok q -> row_ok q.
Proof.
  intro H. assert (exists k, pz p KLIM = Some k) as [k K].
  { unfold av_klim in H. apply bind_inv in H as [k [K _]]. apply pz_getz in K. eauto. }
  destruct (av_klim_spec RA p q k K H) as [M _]. exists (climate_used k). split; [|exact M].
  unfold climate_used. destruct ((1 <=? k)%Z && (k <=? 7)%Z) eqn:E; lia.
Qed.
Ltac byframe F := eapply same_frame; [exact F | reflexivity].
Lemma refresh_cache p q lv : av_refresh RA ((1 / 3)%R : num RA) p = Ok q -> pz p LVAR = Some lv -> (4 < lv)%Z \/ cache_ok p -> cache_ok q.
Proof.
  intros H L C. unfold av_refresh in H. rewrite (proj2 (pz_getz RA p LVAR lv) L) in H. cbn [bind] in H.
  destruct (0 <? lv)%Z eqn:L0; [|apply ok_inj in H; subst q; destruct C; [lia | assumption]].
  apply bind_inv in H as [p1 [R1 H]]. apply bind_inv in H as [p2 [R2 H]]. apply bind_inv in H as [p3 [R3 H]]. apply bind_inv in H as [p4 [R4 R5]].
  assert (row1 : row_ok p1).
  { destruct (4 <? lv)%Z eqn:L4; [eapply av_klim_row; exact R1|]. apply ok_inj in R1. subst p1. destruct C; [lia | apply H]. }
  assert (rest1 : (4 < lv)%Z \/ (gain_ok p1 /\ dexa_ok p1)).
  { destruct C as [C|C]; [left; exact C|]. destruct (4 <? lv)%Z eqn:L4; [left; lia|]. apply ok_inj in R1. subst p1. right. split; apply C. }
  assert (F2 : same_except [] [KDV; KWX] [WS; WL] p1 p2).
  { destruct (3 <? lv)%Z; [apply (av_mode_frame RA p1 p2 R2) | apply ok_inj in R2; subst p2; apply fr_refl]. }
  assert (row2 : row_ok p2) by (eapply row_same; [byframe F2 | exact row1]).
  assert (rest2 : (4 < lv)%Z \/ (gain_ok p2 /\ dexa_ok p2)).
  { destruct rest1 as [C'|[G D]]; [left; exact C' | right]. split; [eapply gain_same; [byframe F2 | exact G] | eapply dexa_same; [byframe F2 | exact D]]. }
  assert (F3 : same_except [GM; GP] [] [] p2 p3).
  { destruct (2 <? lv)%Z; [apply (av_freq_frame RA p2 p3 R3) | apply ok_inj in R3; subst p3; apply fr_refl]. }
  assert (row3 : row_ok p3) by (eapply row_same; [byframe F3 | exact row2]).
  assert (gain3 : gain_ok p3).
  { destruct (2 <? lv)%Z eqn:L2; [eapply av_freq_gain; [exact row2 | exact R3]|]. apply ok_inj in R3. subst p3. destruct rest2 as [?|[G _]]; [lia | exact G]. }
  assert (dexa3 : (4 < lv)%Z \/ dexa_ok p3).
  { destruct rest2 as [?|[_ D]]; [left; assumption | right]. eapply dexa_same; [byframe F3 | exact D]. }
  assert (F4 : same_except [DEXA] [] [] p3 p4).
  { destruct (1 <? lv)%Z; [apply (av_he_frame RA _ p3 p4 R4) | apply ok_inj in R4; subst p4; apply fr_refl]. }
  assert (row4 : row_ok p4) by (eapply row_same; [byframe F4 | exact row3]).
  assert (gain4 : gain_ok p4) by (eapply gain_same; [byframe F4 | exact gain3]).
  assert (dexa4 : dexa_ok p4).
  { destruct (1 <? lv)%Z eqn:L1; [eapply av_he_dexa; exact R4|]. apply ok_inj in R4. subst p4. destruct dexa3; [lia | assumption]. }
  assert (F5 := av_dist_frame RA p4 q R5). cbn beta in F5.
  split; [|split; [|split]].
  - eapply row_same; [byframe F5 | exact row4].
  - eapply gain_same; [byframe F5 | exact gain4].
  - eapply dexa_same; [byframe F5 | exact dexa4].
  - eapply av_dist_stat; [exact row4 | exact gain4 | exact R5].
Qed.
Lemma avar_cache (t l c a : R) p q : (exists lv, pz p LVAR = Some lv /\ (4 < lv)%Z) \/ cache_ok p -> avar RA t l c p = Ok (a, q) -> cache_ok q.
Proof.
  intros C H. apply avar_inv in H as (p1 & k & R & Q & _ & _).
  assert (F := av_quant_frame RA t l c p1 (a, q) Q). cbn [snd] in F.
  eapply cache_same; [byframe F|].
  assert (exists lv, pz p LVAR = Some lv) as [lv L].
  { unfold av_refresh in R. apply bind_inv in R as [lv [L _]]. apply pz_getz in L. eauto. }
  eapply refresh_cache; [exact R | exact L|]. destruct C as [[lv' [L' G]]|C]; [left; congruence | right; exact C].
Qed.
Lemma agree_same nk zk bk (p q : prop RA) : agree_on nk zk bk p q -> same_n nk p q.
Proof. intros [G _] k I. symmetry. apply G. exact I. Qed.
Lemma stat_pre p : stat_state p -> (exists lv, pz p LVAR = Some lv /\ (4 < lv)%Z) \/ cache_ok p.
Proof.
  induction 1 as [p lv L G | p t l c a q q' S IH H G]; [left; eauto|]. right.
  eapply cache_same; [eapply agree_same; exact G | eapply avar_cache; [exact IH | exact H]].
Qed.
Lemma stat_cache (t l c a : R) p q : stat_state p -> avar RA t l c p = Ok (a, q) -> cache_ok q.
Proof. intros S H. eapply avar_cache; [apply stat_pre; exact S | exact H]. Qed.

(** ** C26 *)
Lemma cache_get p k : cache_ok p -> In k cache_n -> pn p k = Some (vals p k).
Proof.
  intros (R & G & D & S) I. destruct (row_vals p R) as [V _].
  destruct G as [[? [? _]] [? [? _]]]. destruct D as [? [? _]]. destruct S as [[? [? _]] [[? [? _]] [? [? [[? [? _]] [[? ?] [? ?]]]]]]].
  unfold cache_n in I. apply in_app_or in I as [I|I]; [apply V; exact I|].
  unfold vals. cbn in I. repeat destruct I as [<-|I]; try contradiction; match goal with H : pn p ?k = Some _ |- pn p ?k = _ => rewrite H end; reflexivity.
Qed.

Lemma avar_aref (t l c a : R) p q : avar RA t l c p = Ok (a, q) -> pn q AREF = Some (vals q AREF).
Proof.
  intro H. apply avar_inv in H as (p1 & k & _ & Q & _). assert (F := av_quant_frame RA t l c p1 (a, q) Q). cbn [snd] in F.
  assert (E : pn q AREF = pn p1 AREF) by (destruct F as [F _]; apply F; intros []).
  unfold vals. rewrite E. clear E F. unfold av_quant in Q. apply bind_inv in Q as [k' [_ Q]].
  destruct (av_fold RA k' t l c) as [[zt zl] zc]. apply bind_inv in Q as [p' [E Q]].
  assert (EP : pn p' AREF = pn p1 AREF).
  { destruct (_ || _)%bool; [apply bind_inv in E as [x [_ E]]; apply ok_inj in E; subst; reflexivity | apply ok_inj in E; subst; reflexivity]. }
  rewrite <- EP. apply bind_inv in Q as [s [_ Q]]. apply bind_inv in Q as [r [Q _]]. unfold av_raw in Q.
  do 9 apply bind_inv in Q as [? [_ Q]]. apply bind_inv in Q as [[yr sgc] [_ Q]].
  getv Q ar. rewrite P. reflexivity.
Qed.
Lemma C26_value (t l c a : R) p q : stat_state p -> avar RA t l c p = Ok (a, q) ->
  exists v k, values q quantile_keys v /\ pz q KDV = Some k /\ a = squash (raw_quantile v k t l c).
Proof.
  intros S H. assert (C := stat_cache _ _ _ _ _ _ S H). assert (AR := avar_aref _ _ _ _ _ _ H).
  apply avar_inv in H as (p1 & k & _ & _ & K & V). exists (vals q), k. split; [|auto].
  intros x I. cbn in I. repeat destruct I as [<-|I]; try contradiction; try exact AR; apply cache_get; try exact C; inks.
Qed.

(** ** C23, C24 *)
Lemma avar_same_cache (t l c t' l' c' a a' : R) p q q' : avar RA t l c p = Ok (a, q) -> avar RA t' l' c' p = Ok (a', q') ->
  pz q KDV = pz q' KDV /\ forall k, vals q' k = vals q k.
Proof.
  intros H H'. apply avar_inv in H as (p1 & _ & R & Q & _). apply avar_inv in H' as (p1' & _ & R' & Q' & _).
  assert (p1' = p1) by congruence. subst p1'.
  assert (F := av_quant_frame RA t l c p1 (a, q) Q). assert (F' := av_quant_frame RA t' l' c' p1 (a', q') Q'). cbn [snd] in *.
  destruct F as [Fn [Fz _]]. destruct F' as [Fn' [Fz' _]]. split.
  - rewrite Fz, Fz' by (cbn; intuition congruence). reflexivity.
  - intro k. unfold vals. rewrite Fn, Fn' by (intros []). reflexivity.
Qed.
Lemma raw_ext v w k t l c : (forall x, v x = w x) -> raw_quantile v k t l c = raw_quantile w k t l c.
Proof. intro E. unfold raw_quantile, situation_var, time_dev. rewrite !E. reflexivity. Qed.
Definition cache_facts (v : nkey -> R) : Prop :=
  0 <= v SGTM /\ 0 <= v SGTP /\ 0 <= v SGTD /\ v SGTD <= 4.7 * v SGTP /\ 0 < v ZD /\ v TGTD = (v SGTP - v SGTD) * v ZD /\ 0 <= v VS0.
Lemma cache_factsI p : cache_ok p -> cache_facts (vals p).
Proof.
  intros (R & G & D & S). destruct (row_vals p R) as [_ (_ & _ & _ & C & Z & _)].
  destruct S as [[a [Ea Pa]] [[b [Eb Pb]] [Ed [Et [[w [Ew Pw]] _]]]]].
  assert (Va : vals p SGTM = a) by (unfold vals; rewrite Ea; reflexivity). assert (Vb : vals p SGTP = b) by (unfold vals; rewrite Eb; reflexivity).
  assert (Vw : vals p VS0 = w) by (unfold vals; rewrite Ew; reflexivity).
  assert (Vd : vals p SGTD = vals p SGTP * vals p CSD1) by (unfold vals at 1; rewrite Ed; reflexivity).
  assert (Vt : vals p TGTD = (vals p SGTP - vals p SGTD) * vals p ZD) by (unfold vals at 1; rewrite Et; reflexivity).
  unfold cache_facts. rewrite Va, Vw. repeat split; try assumption; rewrite ?Vd, ?Vb; nra.
Qed.
Lemma raw_conf v k t l c c' : cache_facts v -> c <= c' -> raw_quantile v k t l c' <= raw_quantile v k t l c.
Proof.
  intros (H1 & H2 & H3 & H4 & H5 & H6 & H7) L. unfold raw_quantile. cbv zeta. apply Rplus_le_compat_l, Ropp_le_contravar.
  destruct (k =? 0)%Z; [|destruct (k =? 1)%Z; [|destruct (k =? 2)%Z]].
  - apply (conf0 (v SGTM) (v SGTP) (v SGTD) (v ZD) (v TGTD) H1 H2 H3 H5 H6 (v SGL) (v VS0) H7 c c' L).
  - apply Rplus_le_compat_l. apply (conf1 (v SGTM) (v SGTP) (v SGTD) (v ZD) (v TGTD) (v SGL) (v VS0) H7 t c c' L).
  - apply Rplus_le_compat_l. apply (conf3 (v SGTM) (v SGTP) (v SGTD) (v ZD) (v TGTD) (v SGL) (v VS0) H7 t t c c' L).
  - apply Rplus_le_compat_l. apply (conf3 (v SGTM) (v SGTP) (v SGTD) (v ZD) (v TGTD) (v SGL) (v VS0) H7 t l c c' L).
Qed.
Lemma raw_time v k t t' l c : cache_facts v -> k <> 0%Z -> t <= t' -> raw_quantile v k t' l c <= raw_quantile v k t l c.
Proof.
  intros (H1 & H2 & H3 & H4 & H5 & H6 & H7) N L. unfold raw_quantile. cbv zeta. apply Rplus_le_compat_l, Ropp_le_contravar.
  apply Z.eqb_neq in N. rewrite N. assert (T := fun K HK => time13 (v SGTM) (v SGTP) (v SGTD) (v ZD) (v TGTD) H1 H2 H3 H5 H6 K c t t' HK L).
  assert (P : forall l, 0 <= (v SGL * l) ^ 2 / (24 + c ^ 2)) by (intro x; apply sq_div_nonneg; lra).
  destruct (k =? 1)%Z; [|destruct (k =? 2)%Z].
  - specialize (T (v SGL ^ 2 + v VS0 + (v SGL * c) ^ 2 / (24 + c ^ 2))).
    pose proof (P c). pose proof (pow2_ge_0 (v SGL)). unfold situation_var.
    match goal with |- _ + c * sqrt ?x <= _ + c * sqrt ?y =>
      replace x with (v SGL ^ 2 + v VS0 + (v SGL * c) ^ 2 / (24 + c ^ 2) + (time_dev v t * t) ^ 2 / (7.8 + c ^ 2)) by ring;
      replace y with (v SGL ^ 2 + v VS0 + (v SGL * c) ^ 2 / (24 + c ^ 2) + (time_dev v t' * t') ^ 2 / (7.8 + c ^ 2)) by ring end.
    apply T. lra.
  - apply (mob_mono (v SGTM) (v SGTP) (v SGTD) (v ZD) (v TGTD)); assumption.
  - specialize (T (v VS0 + (v SGL * l) ^ 2 / (24 + c ^ 2))).
    pose proof (P l). unfold situation_var.
    match goal with |- _ + c * sqrt ?x <= _ + c * sqrt ?y =>
      replace x with (v VS0 + (v SGL * l) ^ 2 / (24 + c ^ 2) + (time_dev v t * t) ^ 2 / (7.8 + c ^ 2)) by ring;
      replace y with (v VS0 + (v SGL * l) ^ 2 / (24 + c ^ 2) + (time_dev v t' * t') ^ 2 / (7.8 + c ^ 2)) by ring end.
    specialize (T ltac:(lra)). unfold time_dev in *. unfold dv in T. lra.
Qed.
Lemma C23_conf (t l c c' a a' : R) p q q' : stat_state p -> avar RA t l c p = Ok (a, q) -> avar RA t l c' p = Ok (a', q') -> c <= c' -> a' <= a.
Proof.
  intros S H H' L. assert (C := cache_factsI q (stat_cache _ _ _ _ _ _ S H)).
  destruct (avar_same_cache _ _ _ _ _ _ _ _ _ _ _ H H') as [EK EV].
  apply avar_inv in H as (_ & k & _ & _ & K & ->). apply avar_inv in H' as (_ & k' & _ & _ & K' & ->).
  assert (k' = k) by congruence. subst k'. rewrite (raw_ext (vals q') (vals q)) by exact EV. apply squash_le, raw_conf; assumption.
Qed.
Lemma C24_time (t t' l c a a' : R) p q q' k : stat_state p -> avar RA t l c p = Ok (a, q) -> avar RA t' l c p = Ok (a', q') ->
  pz q KDV = Some k -> k <> 0%Z -> t <= t' -> a' <= a.
Proof.
  intros S H H' Kq N L. assert (C := cache_factsI q (stat_cache _ _ _ _ _ _ S H)).
  destruct (avar_same_cache _ _ _ _ _ _ _ _ _ _ _ H H') as [EK EV].
  apply avar_inv in H as (_ & k1 & _ & _ & K & ->). apply avar_inv in H' as (_ & k' & _ & _ & K' & ->).
  assert (k' = k) by congruence. assert (k1 = k) by congruence. subst k' k1. rewrite (raw_ext (vals q') (vals q)) by exact EV. apply squash_le, raw_time; assumption.
Qed.

(** ** C27: totality *)
Lemma av_sgt_run (z : R) p : cache_ok p -> exists s, av_sgt RA z p = Ok s.
Proof.
  intro C. assert (G : forall k, In k cache_n -> getn p k = Ok (vals p k)) by (intros k I; unfold getn; rewrite (cache_get p k C I); reflexivity).
  unfold av_sgt. runfold. destruct (r_ltb z 0); [rewrite G by inks; eauto|]. rewrite G by inks. cbn [bind].
  destruct (r_leb z (vals p ZD)) eqn:B; [rewrite G by inks; eauto|]. rewrite !G by inks. cbn [bind]. runfold. apply r_leb_false in B.
  pose proof (cache_factsI p C) as (_ & _ & _ & _ & Z & _). rewrite r_div_ok by lra. cbn [bind]. eauto.
Qed.
Lemma av_raw_run (k : Z) (t l c s ar : R) p : cache_ok p -> pn p AREF = Some ar -> exists a, av_raw RA k t l c s p = Ok a.
Proof.
  intros C AR. assert (G : forall k, In k cache_n -> getn p k = Ok (vals p k)) by (intros k' I; unfold getn; rewrite (cache_get p k' C I); reflexivity).
  pose proof (cache_factsI p C) as (_ & _ & _ & _ & _ & _ & W).
  unfold av_raw. rewrite !G by inks. cbn [bind]. runfold. rewrite !r_powZ_2. cbn [bind]. pose proof (pow2_ge_0 c).
  rewrite r_div_ok by lra. cbn [bind]. rewrite r_div_ok by lra. cbn [bind].
  pose proof (sq_div_nonneg (s * t) (78 / 10) c ltac:(lra)). pose proof (sq_div_nonneg (vals p SGL * l) 24 c ltac:(lra)).
  set (w := vals p VS0 + (s * t) ^ 2 / (78 / 10 + c ^ 2) + (vals p SGL * l) ^ 2 / (24 + c ^ 2)) in *.
  assert (0 <= w) by (unfold w; lra). pose proof (pow2_ge_0 s). pose proof (pow2_ge_0 (vals p SGL)).
  rewrite !r_sqrt_ok by lra. cbn [bind]. rewrite (proj2 (pn_getn RA p AREF ar) AR). cbn [bind].
  destruct (k =? 0)%Z; [|destruct (k =? 1)%Z; [|destruct (k =? 2)%Z]]; cbn [bind]; rewrite G by inks; cbn [bind]; eauto.
Qed.
Lemma av_compress_run (a : R) : exists b, av_compress RA a = Ok b.
Proof.
  unfold av_compress. runfold. destruct (r_ltb a 0) eqn:B; [apply r_ltb_true in B; rewrite r_div_ok by lra|]; eauto.
Qed.
Lemma av_quant_run (t l c ar : R) p kd kw : cache_ok p -> pn p AREF = Some ar -> pz p KDV = Some kd -> pz p KWX = Some kw ->
  exists r, av_quant RA t l c p = Ok r.
Proof.
  intros C AR KD KW. unfold av_quant. rewrite (proj2 (pz_getz RA p KDV kd) KD). cbn [bind].
  destruct (av_fold RA kd t l c) as [[zt zl] zc].
  set (p' := if ((310 // 100 <? n_abs zt) || (310 // 100 <? n_abs zl) || (310 // 100 <? n_abs zc))%num then setz p KWX (Z.max kw 1) else p).
  assert (E : (if ((310 // 100 <? n_abs zt) || (310 // 100 <? n_abs zl) || (310 // 100 <? n_abs zc))%num
     then let! kwx := getz p KWX in Ok (setz p KWX (Z.max kwx 1)) else Ok p) = Ok p').
  { unfold p'. destruct (_ || _)%bool; [rewrite (proj2 (pz_getz RA p KWX kw) KW)|]; reflexivity. }
  rewrite E. cbn [bind].
  assert (N : forall k, pn p' k = pn p k) by (intro k; unfold p'; destruct (_ || _)%bool; reflexivity).
  assert (C' : cache_ok p') by (eapply cache_same; [|exact C]; intros k _; apply N).
  destruct (av_sgt_run zt p' C') as [s ->]. cbn [bind]. rewrite <- N in AR.
  destruct (av_raw_run kd zt zl zc s ar p' C' AR) as [r ->]. cbn [bind]. destruct (av_compress_run r) as [b ->]. cbn [bind]. eauto.
Qed.

(** The entries documented as inputs of avar, in their documented ranges. *)
Lemma keep_n nk zk bk (p q : prop RA) k (x : R) : same_except nk zk bk p q -> memn k nk = false -> pn p k = Some x -> pn q k = Some x.
Proof. intros [F _] M E. rewrite F by (apply memn_nIn; exact M). exact E. Qed.
Lemma keep_z nk zk bk (p q : prop RA) k x : same_except nk zk bk p q -> memz k zk = false -> pz p k = Some x -> pz q k = Some x.
Proof. intros [_ [F _]] M E. rewrite F by (apply memz_nIn; exact M). exact E. Qed.
Lemma keep_b nk zk bk (p q : prop RA) k x : same_except nk zk bk p q -> memb k bk = false -> pb p k = Some x -> pb q k = Some x.
Proof. intros [_ [_ [F _]]] M E. rewrite F by (apply memb_nIn; exact M). exact E. Qed.
Ltac keepn F := eapply keep_n; [exact F | reflexivity |].
Ltac keepz F := eapply keep_z; [exact F | reflexivity |].
Ltac keepb F := eapply keep_b; [exact F | reflexivity |].
Lemma av_mode_run (p : prop RA) m kw : pz p MDVAR = Some m -> pz p KWX = Some kw -> exists q, av_mode RA p = Ok q /\ (exists k, pz q KDV = Some k) /\
  (exists k, pz q KWX = Some k) /\ (exists b, pb q WS = Some b) /\ (exists b, pb q WL = Some b).
Proof.
  intros M K. unfold av_mode. rewrite (proj2 (pz_getz RA p MDVAR m) M). cbn [bind].
  destruct (_ || _)%bool; dsimp; rewrite ?(proj2 (pz_getz RA p KWX kw) K); cbn [bind]; eexists; (split; [reflexivity|]); cbn; repeat split; eauto.
Qed.
Lemma avar_total (t l c wn h0 h1 d dh ar : R) (p : prop RA) lv kl kw m :
  pz p LVAR = Some lv -> pz p KLIM = Some kl -> pz p KWX = Some kw -> pz p MDVAR = Some m ->
  pn p WN = Some wn -> pn p HE0 = Some h0 -> pn p HE1 = Some h1 -> pn p DIST = Some d -> pn p DH = Some dh -> pn p AREF = Some ar ->
  0 < wn -> 0 <= h0 -> 0 <= h1 -> 0 <= d -> 0 <= dh ->
  (4 < lv)%Z \/ (cache_ok p /\ (exists k, pz p KDV = Some k) /\ (exists b, pb p WS = Some b) /\ (exists b, pb p WL = Some b)) ->
  exists a q, avar RA t l c p = Ok (a, q).
Proof.
  intros L KL KW M W E0 E1 D H AR Pw P0 P1 Pd Ph C. unfold avar. rewrite third_R. cbn [bind].
  cut (exists p1, av_refresh RA ((1 / 3)%R : num RA) p = Ok p1 /\ (exists k, pz p1 KWX = Some k) /\ (exists k, pz p1 KDV = Some k)).
  { intros [p1 [R [[kw' KW'] [kd KD]]]].
    assert (Ca : cache_ok p1) by (eapply refresh_cache; [exact R | exact L |]; destruct C as [C|[C _]]; auto).
    assert (F := av_refresh_frame RA _ p p1 R). cbn beta in F.
    destruct (av_quant_run t l c ar p1 kd kw' Ca ltac:(keepn F; exact AR) KD KW') as [[a q] Q].
    exists a, q. unfold bind. change (@eq (res (prop RA))) with (@eq (res (prop RA))) in R.
    match goal with |- match ?m with _ => _ end = _ => replace m with (Ok p1) by (symmetry; exact R) end. exact Q. }
  unfold av_refresh. rewrite (proj2 (pz_getz RA p LVAR lv) L). cbn [bind].
  destruct (0 <? lv)%Z eqn:L0.
  2: { exists p. destruct C as [C|(_ & KD & _)]; [lia|]. eauto. }
  assert (exists p1, (if (4 <? lv)%Z then av_klim RA p else Ok p) = Ok p1 /\ row_ok p1 /\ same_except clim_keys [KLIM; KWX] [] p p1 /\
     (exists k, pz p1 KWX = Some k) /\ ((4 < lv)%Z \/ (gain_ok p1 /\ dexa_ok p1 /\ (exists k, pz p1 KDV = Some k) /\ (exists b, pb p1 WS = Some b) /\ (exists b, pb p1 WL = Some b))))
    as (p1 & R1 & row1 & F1 & KW1 & C1).
  { destruct (4 <? lv)%Z eqn:L4.
    - destruct (av_klim_total RA p kl KL) as [p1 R1]; [right; eauto|]. exists p1. split; [exact R1|]. split; [eapply av_klim_row; exact R1|].
      split; [apply (av_klim_frame RA p p1 R1)|]. split; [|left; lia].
      destruct (av_klim_spec RA p p1 kl KL R1) as (_ & _ & K & _). destruct (_ && _)%bool; [rewrite K; eauto | destruct K as [x [_ K]]; eauto].
    - exists p. destruct C as [C|((A & B & X & _) & KD & S & Wl)]; [lia|]. repeat split; eauto. right. repeat split; eauto; apply B. }
  rewrite R1. cbn [bind].
  assert (exists p2, (if (3 <? lv)%Z then av_mode RA p1 else Ok p1) = Ok p2 /\ same_except [] [KDV; KWX] [WS; WL] p1 p2 /\
     (exists k, pz p2 KDV = Some k) /\ (exists k, pz p2 KWX = Some k) /\ (exists b, pb p2 WS = Some b) /\ (exists b, pb p2 WL = Some b))
    as (p2 & R2 & F2 & KD2 & KW2 & WS2 & WL2).
  { destruct (3 <? lv)%Z eqn:L3.
    - destruct KW1 as [kw1 KW1]. destruct (av_mode_run p1 m kw1 ltac:(keepz F1; exact M) KW1) as (p2 & R2 & A & B & X & Y).
      exists p2. split; [exact R2|]. split; [apply (av_mode_frame RA p1 p2 R2)|]. auto.
    - exists p1. destruct C1 as [C1|(_ & _ & KD & S & Wl)]; [lia|]. split; [reflexivity|]. split; [apply fr_refl|]. auto. }
  rewrite R2. cbn [bind].
  assert (row2 : row_ok p2) by (eapply row_same; [byframe F2 | exact row1]).
  assert (exists p3, (if (2 <? lv)%Z then av_freq RA p2 else Ok p2) = Ok p3 /\ same_except [GM; GP] [] [] p2 p3 /\ gain_ok p3)
    as (p3 & R3 & F3 & gain3).
  { destruct (2 <? lv)%Z eqn:L2.
    - destruct (av_freq_run p2 wn row2 ltac:(keepn F2; keepn F1; exact W) Pw) as [p3 [R3 G]]. exists p3. split; [exact R3|].
      split; [apply (av_freq_frame RA p2 p3 R3) | exact G].
    - exists p2. destruct C1 as [C1|(G & _)]; [lia|]. split; [reflexivity|]. split; [apply fr_refl|]. eapply gain_same; [byframe F2 | exact G]. }
  rewrite R3. cbn [bind].
  assert (exists p4, (if (1 <? lv)%Z then av_he RA ((1 / 3)%R : num RA) p3 else Ok p3) = Ok p4 /\ same_except [DEXA] [] [] p3 p4 /\ dexa_ok p4)
    as (p4 & R4 & F4 & dexa4).
  { destruct (1 <? lv)%Z eqn:L2.
    - destruct (av_he_run p3 h0 h1 wn ltac:(keepn F3; keepn F2; keepn F1; exact E0) ltac:(keepn F3; keepn F2; keepn F1; exact E1)
        ltac:(keepn F3; keepn F2; keepn F1; exact W) P0 P1 Pw) as [p4 R4]. exists p4. split; [exact R4|].
      split; [apply (av_he_frame RA _ p3 p4 R4) | eapply av_he_dexa; exact R4].
    - exists p3. destruct C1 as [C1|(_ & X & _)]; [lia|]. split; [reflexivity|]. split; [apply fr_refl|].
      eapply dexa_same; [byframe F3|]. eapply dexa_same; [byframe F2 | exact X]. }
  assert (row4 : row_ok p4) by (eapply row_same; [byframe F4|]; eapply row_same; [byframe F3 | exact row2]).
  assert (gain4 : gain_ok p4) by (eapply gain_same; [byframe F4 | exact gain3]).
  destruct (av_dist_run p4 d dh wn row4 gain4 dexa4 ltac:(keepn F4; keepn F3; keepn F2; keepn F1; exact D)
    ltac:(keepn F4; keepn F3; keepn F2; keepn F1; exact H) ltac:(keepn F4; keepn F3; keepn F2; keepn F1; exact W) Pd Ph Pw) as [p5 R5].
  { destruct WS2 as [b Hb]. exists b. keepb F4. keepb F3. exact Hb. }
  { destruct WL2 as [b Hb]. exists b. keepb F4. keepb F3. exact Hb. }
  exists p5. assert (F5 := av_dist_frame RA p4 p5 R5). cbn beta in F5. split.
  - refine (eq_trans _ R5). match goal with |- bind ?m _ = _ => replace m with (Ok p4) by (symmetry; exact R4) end. reflexivity.
  - split.
    + destruct KW2 as [b Hb]. exists b. keepz F5. keepz F4. keepz F3. exact Hb.
    + destruct KD2 as [b Hb]. exists b. keepz F5. keepz F4. keepz F3. exact Hb.
Qed.

Definition flags_ok (p : prop RA) : Prop := (exists k, pz p KDV = Some k) /\ (exists b, pb p WS = Some b) /\ (exists b, pb p WL = Some b).
Lemma av_dist_flags p q : av_dist RA p = Ok q -> (exists b, pb q WS = Some b) /\ (exists b, pb q WL = Some b).
Proof.
  intro H. assert (F := av_dist_frame RA p q H). cbn beta in F.
  assert (G : (exists b, pb p WS = Some b) /\ (exists b, pb p WL = Some b)).
  { unfold av_dist in H. repeat match type of H with
      | (let! wl := getb _ WL in _) = _ => fail 1
      | _ => apply bind_inv in H as [? [_ H]]; dsimp_in H
      end.
    apply bind_inv in H as [wl [E1 H]]. apply bind_inv in H as [sgl [_ H]]. dsimp_in H. apply bind_inv in H as [ws [E2 H]].
    apply pb_getb in E1. apply pb_getb in E2. eauto. }
  destruct G as [[b Hb] [c Hc]]. split; [exists b | exists c]; keepb F; assumption.
Qed.
Lemma avar_flags (t l c a : R) p q : (exists lv, pz p LVAR = Some lv /\ (4 < lv)%Z) \/ flags_ok p -> avar RA t l c p = Ok (a, q) -> flags_ok q.
Proof.
  intros C H. apply avar_inv in H as (p1 & k & R & Q & K & _).
  assert (F := av_quant_frame RA t l c p1 (a, q) Q). cbn [snd] in F. split; [eauto|].
  cut ((exists b, pb p1 WS = Some b) /\ (exists b, pb p1 WL = Some b)).
  { intros [[b Hb] [d Hd]]. split; [exists b | exists d]; keepb F; assumption. }
  unfold av_refresh in R. apply bind_inv in R as [lv [L R]]. apply pz_getz in L. destruct (0 <? lv)%Z eqn:L0.
  - do 4 apply bind_inv in R as [? [_ R]]. eapply av_dist_flags; exact R.
  - apply ok_inj in R. subst p1. destruct C as [[lv' [L' G]]|C]; [assert (lv' = lv) by congruence; lia | apply C].
Qed.
Lemma stat_flags p : stat_state p -> (exists lv, pz p LVAR = Some lv /\ (4 < lv)%Z) \/ flags_ok p.
Proof.
  induction 1 as [p lv L G | p t l c a q q' S IH H G]; [left; eauto|]. right.
  destruct (avar_flags _ _ _ _ _ _ IH H) as [A [B C]]. destruct G as [_ [Gz Gb]]. unfold flags_ok.
  rewrite <- Gz by (cbn; auto). rewrite <- !Gb by (cbn; auto). auto.
Qed.
Lemma C27_total (t l c : R) p : stat_state p -> avar_inputs p -> exists a q, avar RA t l c p = Ok (a, q).
Proof.
  intros S (lv & kl & kw & m & L & KL & KW & M & v & V & W & H0 & H1 & D & H).
  assert (C1 := stat_pre p S). assert (C2 := stat_flags p S).
  eapply (avar_total t l c (v WN) (v HE0) (v HE1) (v DIST) (v DH) (v AREF) p lv kl kw m); try assumption; try (apply V; inks).
  destruct C1 as [[lv' [L' G]]|C1]; [left; congruence|]. destruct C2 as [[lv' [L' G]]|C2]; [left; congruence|]. right. split; [exact C1 | exact C2].
Qed.
Lemma av_dist_lvar (A : arith) (p : prop A) : wp (av_dist A p) (fun q => pz q LVAR = Some 0%Z).
Proof. unfold av_dist. repeat wstep fail; reflexivity. Qed.
Lemma av_refresh_zero (A : arith) th (p q : prop A) lv : av_refresh A th p = Ok q -> pz p LVAR = Some lv ->
  pz q LVAR = Some (if (0 <? lv)%Z then 0%Z else lv).
Proof.
  intros R L. unfold av_refresh in R. rewrite (proj2 (pz_getz A p LVAR lv) L) in R. cbn [bind] in R. destruct (0 <? lv)%Z.
  - do 4 apply bind_inv in R as [? [_ R]]. exact (av_dist_lvar A _ q R).
  - apply ok_inj in R. subst. exact L.
Qed.
Lemma C27_effects (A : arith) (t l c a : num A) p q lv : avar A t l c p = Ok (a, q) -> pz p LVAR = Some lv ->
  pz q LVAR = Some (if (0 <? lv)%Z then 0%Z else lv) /\ same_except cache_n [KLIM; KWX; KDV; LVAR] [WS; WL] p q.
Proof.
  intros H L. assert (F := avar_frame A t l c p (a, q) H). cbn [snd] in F. split.
  - unfold avar in H. apply bind_inv in H as [th [_ H]]. apply bind_inv in H as [p1 [R H]].
    assert (F' := av_quant_frame A t l c p1 (a, q) H). cbn [snd] in F'. destruct F' as [_ [F' _]]. rewrite F' by (cbn; intuition congruence).
    eapply av_refresh_zero; eassumption.
  - eapply fr_weaken; [|exact F]; reflexivity.
Qed.
Lemma squash_facts : (forall a, 0 <= a -> squash a = a) /\ (forall a, a < 0 -> a < squash a < 0) /\ (forall a b, a < b -> squash a < squash b).
Proof. split; [exact squash_pos|]. split; [exact squash_between | exact squash_lt]. Qed.
Lemma C26_facts (t l c a : R) p q : stat_state p -> avar RA t l c p = Ok (a, q) ->
  exists v k, values q quantile_keys v /\ pz q KDV = Some k /\
    let raw := raw_quantile v k t l c in
    a = squash raw /\ (0 <= raw -> a = raw) /\ (raw < 0 -> raw < a < 0).
Proof.
  intros S H. destruct (C26_value _ _ _ _ _ _ S H) as (v & k & V & K & E). exists v, k. split; [exact V|]. split; [exact K|]. cbv zeta.
  split; [exact E|]. rewrite E. split; [apply squash_pos | apply squash_between].
Qed.
