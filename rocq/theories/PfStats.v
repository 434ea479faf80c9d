(** avar's cached statistics are those of the reference formulas. *)
From Verif Require Import Frame SpecLr PfFrame PfLrGen PfRegime PfAvarGen PfAvarInc PfAvarApi PfAtten PfQuant SpecStats PfAvarReal.
Open Scope R_scope.

Lemma vals_some (p : prop RA) k (x : R) : pn p k = Some x -> vals p k = x.
Proof. unfold vals. intros ->. reflexivity. Qed.
Lemma vals_same nk zk bk (p q : prop RA) k : same_except nk zk bk p q -> memn k nk = false -> vals q k = vals p k.
Proof. intros F M. unfold vals. rewrite (fr_pn _ _ _ _ _ _ F M). reflexivity. Qed.

Lemma freq_value p q : row_ok p -> av_freq RA p = Ok q ->
  vals q GM = freq_factor (vals q) CFM1 CFM2 CFM3 /\ vals q GP = freq_factor (vals q) CFP1 CFP2 CFP3 /\ exists x, pn q WN = Some x.
Proof.
  intros R H. unfold av_freq in H. getv H wn. apply bind_inv in H as [x [E H]]. apply r_log_inv in E as [_ ->]. runfold.
  rewrite !row_get in H by (try exact R; inks). cbn [bind] in H. rewrite av_gain_ok in H. cbn [bind] in H. dsimp_in H.
  rewrite !row_get in H by (try exact R; inks). cbn [bind] in H. rewrite av_gain_ok in H. cbn [bind] in H. apply ok_inj in H. subst q.
  replace (133 / 1000) with 0.133 by lra. split; [|split].
  - reflexivity.
  - reflexivity.
  - exists (vals p WN). exact P.
Qed.
Lemma he_value p q : av_he RA ((1 / 3)%R : num RA) p = Ok q -> vals q DEXA = equal_distance (vals q) /\ values q [HE0; HE1; WN] (vals q).
Proof.
  intro H. unfold av_he in H. getv H h0. apply bind_inv in H as [s0 [E0 H]]. getv H h1. apply bind_inv in H as [s1 [E1 H]].
  getv H wn. apply bind_inv in H as [t [Et H]]. apply bind_inv in H as [u [Eu H]]. apply ok_inj in H; subst q. runfold.
  apply r_sqrt_inv in E0 as [_ ->]. apply r_sqrt_inv in E1 as [_ ->]. apply r_div_inv in Et as [Nw ->].
  assert (u = Rpower (575700000000000 / vals p WN) (1 / 3)) as ->.
  { apply r_pow_inv in Eu as [[_ ->]|[[Z _]|[Z _]]]; [f_equal; field; exact Nw| |];
    (exfalso; apply Rmult_integral in Z; destruct Z as [Z|Z]; [lra | revert Z; apply Rinv_neq_0_compat; exact Nw]). }
  replace (18000000 / 1) with 18000000 by lra. split; [reflexivity|].
  intros k [<-|[<-|[<-|[]]]]; cbn; assumption.
Qed.
Lemma de_value p (de : R) : dexa_ok p -> av_de RA p = Ok de -> de = effective_distance (vals p).
Proof.
  intros _ H. unfold av_de in H. getv H d. getv H x. unfold effective_distance. runfold. unfold r_ltb in H.
  destruct (Rlt_dec (vals p DIST) (vals p DEXA)).
  - apply r_div_inv in H as [_ ->]. f_equal. lra.
  - apply ok_inj in H. subst de. lra.
Qed.
Lemma dist_value p q : row_ok p -> gain_ok p -> dexa_ok p -> av_dist RA p = Ok q -> exists pp interf,
  pb q WL = Some pp /\ pb q WS = Some interf /\ distance_stats (vals q) pp interf /\
  (pp = false -> values q [DH; WN] (vals q)) /\ exists x, pn q DIST = Some x.
Proof.
  intros R [[gm [Gm Pm]] [gp [Gp Pp]]] X H. destruct (row_vals p R) as [V F].
  assert (FR := av_dist_frame RA p q H). cbn beta in FR.
  unfold av_dist in H. apply bind_inv in H as [de [Ed H]].
  assert (D : exists x, pn p DIST = Some x). { unfold av_de in Ed. getv Ed d. eauto. }
  apply (de_value p de X) in Ed.
  rewrite !(row_get p) in H by (try exact R; inks). cbn [bind] in H.
  rewrite curv_ok in H by apply F. cbn [bind] in H. dsimp_in H.
  rewrite !(row_get p) in H by (try exact R; inks). cbn [bind] in H.
  rewrite curv_ok in H by apply F. cbn [bind] in H. rewrite (proj2 (pn_getn RA p GM gm) Gm) in H. cbn [bind] in H. dsimp_in H.
  rewrite !(row_get p) in H by (try exact R; inks). cbn [bind] in H.
  rewrite curv_ok in H by apply F. cbn [bind] in H. dsimp_in H. rewrite (proj2 (pn_getn RA p GP gp) Gp) in H. cbn [bind] in H. dsimp_in H.
  rewrite !(row_get p) in H by (try exact R; inks). cbn [bind] in H. dsimp_in H.
  rewrite !(row_get p) in H by (try exact R; inks). cbn [bind] in H. dsimp_in H.
  apply bind_inv in H as [wl [Wl H]]. apply bind_inv in H as [sgl [Es H]]. dsimp_in H. apply bind_inv in H as [ws [Ws H]].
  apply bind_inv in H as [vs0 [E H]]. apply ok_inj in H. apply pb_getb in Wl, Ws.
  exists wl, ws.
  assert (KV : forall k, memn k [VMD; SGTM; SGTP; SGTD; TGTD; SGL; VS0] = false -> vals q k = vals p k).
  { intros k M. eapply vals_same; [exact FR | exact M]. }
  split; [rewrite (fr_pb _ _ _ _ _ _ FR) by reflexivity; exact Wl|].
  split; [rewrite (fr_pb _ _ _ _ _ _ FR) by reflexivity; exact Ws|].
  assert (Ed' : de = effective_distance (vals q)).
  { rewrite Ed. unfold effective_distance. rewrite !KV by reflexivity. reflexivity. }
  assert (Sg : (wl = false -> values p [DH; WN] (vals p)) /\ sgl = if wl then 0 else location_dev (vals p)).
  { destruct wl; [apply ok_inj in Es; subst sgl; split; [discriminate | reflexivity]|].
    dsimp_in Es. getv Es d. getv Es dh. apply bind_inv in Es as [z [Ez Es]]. apply dh_at_inv in Ez. getv Es wn. runfold.
    apply r_div_inv in Es as [_ ->]. split; [intros _ k [<-|[<-|[]]]; assumption|]. unfold location_dev, irregularity_at. rewrite Ez. reflexivity. }
  assert (Vs : vs0 = if ws then 0 else (5 + 3 * exp (- de / 100000)) ^ 2).
  { destruct ws; [apply ok_inj in E; subst vs0; reflexivity|]. apply bind_inv in E as [t [Et E]]. apply bind_inv in E as [e [Ee E]].
    runfold. apply r_div_inv in Et as [_ ->]. rewrite r_powZ_2 in E. apply ok_inj in E. subst vs0. apply ok_inj in Ee. subst e.
    do 4 f_equal. lra. }
  destruct Sg as [Dh Sg].
  split; [|split; [intros W k I; assert (M : memn k [VMD; SGTM; SGTP; SGTD; TGTD; SGL; VS0] = false) by (destruct I as [<-|[<-|[]]]; reflexivity);
           rewrite (KV k M), (fr_pn _ _ _ _ _ _ FR M); apply (Dh W k I)
          | destruct D as [x Ex]; exists x; rewrite (fr_pn _ _ _ _ _ _ FR) by reflexivity; exact Ex]].
  assert (GMv : vals q GM = gm) by (rewrite KV by reflexivity; apply vals_some; exact Gm).
  assert (GPv : vals q GP = gp) by (rewrite KV by reflexivity; apply vals_some; exact Gp).
  unfold distance_stats, curve_at. cbv zeta. rewrite <- Ed', GMv, GPv.
  assert (L : location_dev (vals q) = location_dev (vals p)).
  { unfold location_dev, irregularity_at. rewrite !KV by reflexivity. reflexivity. }
  rewrite L. rewrite !(KV CV1), !(KV CV2), !(KV YV1), !(KV YV2), !(KV YV3), !(KV CSM1), !(KV CSM2), !(KV YSM1), !(KV YSM2), !(KV YSM3),
    !(KV CSP1), !(KV CSP2), !(KV YSP1), !(KV YSP2), !(KV YSP3), !(KV CSD1), !(KV ZD) by reflexivity.
  clear KV FR Ed'. subst q sgl vs0. repeat split; reflexivity.
Qed.
Lemma refresh_value p q lv : av_refresh RA ((1 / 3)%R : num RA) p = Ok q -> pz p LVAR = Some lv -> (4 < lv)%Z \/ cache_ok p -> (0 < lv)%Z ->
  (exists pp interf, pb q WL = Some pp /\ pb q WS = Some interf /\ distance_stats (vals q) pp interf /\
     (pp = false -> values q [DH; WN] (vals q)) /\ exists x, pn q DIST = Some x) /\
  ((1 < lv)%Z -> vals q DEXA = equal_distance (vals q) /\ values q [HE0; HE1; WN] (vals q)) /\
  ((2 < lv)%Z -> vals q GM = freq_factor (vals q) CFM1 CFM2 CFM3 /\ vals q GP = freq_factor (vals q) CFP1 CFP2 CFP3).
Proof.
  intros H L C L0. unfold av_refresh in H. rewrite (proj2 (pz_getz RA p LVAR lv) L) in H. cbn [bind] in H.
  rewrite (proj2 (Z.ltb_lt 0 lv) L0) in H.
  apply bind_inv in H as [p1 [R1 H]]. apply bind_inv in H as [p2 [R2 H]]. apply bind_inv in H as [p3 [R3 H]]. apply bind_inv in H as [p4 [R4 R5]].
  assert (row1 : row_ok p1).
  { destruct (4 <? lv)%Z eqn:L4; [eapply av_klim_row; exact R1|]. apply ok_inj in R1. subst p1. destruct C; [lia | apply H]. }
  assert (rest1 : (4 < lv)%Z \/ (gain_ok p1 /\ dexa_ok p1)).
  { destruct C as [C|C]; [left; exact C|]. destruct (4 <? lv)%Z eqn:L4; [left; lia|]. apply ok_inj in R1. subst p1. right. split; apply C. }
  assert (F2 : same_except [] [KDV; KWX] [WS; WL] p1 p2).
  { destruct (3 <? lv)%Z; [apply (av_mode_frame RA p1 p2 R2) | apply ok_inj in R2; subst p2; apply fr_refl]. }
  assert (row2 : row_ok p2) by (eapply row_same; [byframe F2 | exact row1]).
  assert (rest2 : (4 < lv)%Z \/ (gain_ok p2 /\ dexa_ok p2)).
  { destruct rest1 as [C'|[G D]]; [left; exact C' | right]. split; [eapply gain_same; [byframe F2 | exact G] | eapply dexa_same; [byframe F2 | exact D]]. }
  assert (F3 : same_except [GM; GP] [] [] p2 p3).
  { destruct (2 <? lv)%Z; [apply (av_freq_frame RA p2 p3 R3) | apply ok_inj in R3; subst p3; apply fr_refl]. }
  assert (row3 : row_ok p3) by (eapply row_same; [byframe F3 | exact row2]).
  assert (gain3 : gain_ok p3).
  { destruct (2 <? lv)%Z eqn:L2; [eapply av_freq_gain; [exact row2 | exact R3]|]. apply ok_inj in R3. subst p3. destruct rest2 as [?|[G _]]; [lia | exact G]. }
  assert (dexa3 : (4 < lv)%Z \/ dexa_ok p3).
  { destruct rest2 as [?|[_ D]]; [left; assumption | right]. eapply dexa_same; [byframe F3 | exact D]. }
  assert (F4 : same_except [DEXA] [] [] p3 p4).
  { destruct (1 <? lv)%Z; [apply (av_he_frame RA _ p3 p4 R4) | apply ok_inj in R4; subst p4; apply fr_refl]. }
  assert (row4 : row_ok p4) by (eapply row_same; [byframe F4 | exact row3]).
  assert (gain4 : gain_ok p4) by (eapply gain_same; [byframe F4 | exact gain3]).
  assert (dexa4 : dexa_ok p4).
  { destruct (1 <? lv)%Z eqn:L1; [eapply av_he_dexa; exact R4|]. apply ok_inj in R4. subst p4. destruct dexa3; [lia | assumption]. }
  assert (F5 := av_dist_frame RA p4 q R5). cbn beta in F5.
  split; [exact (dist_value p4 q row4 gain4 dexa4 R5)|]. split.
  - intro L1. rewrite (proj2 (Z.ltb_lt 1 lv) L1) in R4. apply he_value in R4 as [E V].
    assert (KV : forall k, In k [DEXA; HE0; HE1; WN] -> vals q k = vals p4 k).
    { intros k [<-|[<-|[<-|[<-|[]]]]]; (eapply vals_same; [exact F5 | reflexivity]). }
    split; [unfold equal_distance in *; rewrite !KV by inks; exact E|].
    intros k I. rewrite KV by (right; exact I). rewrite <- (V k I). destruct F5 as [F5 _]. apply F5.
    destruct I as [<-|[<-|[<-|[]]]]; apply memn_nIn; reflexivity.
  - intro L2. rewrite (proj2 (Z.ltb_lt 2 lv) L2) in R3. apply (freq_value p2 p3 row2) in R3 as (E1 & E2 & _).
    assert (KV : forall k, In k [GM; GP; CFM1; CFM2; CFM3; CFP1; CFP2; CFP3; WN] -> vals q k = vals p3 k).
    { intros k I. transitivity (vals p4 k); [eapply vals_same; [exact F5|] | eapply vals_same; [exact F4|]];
      cbn in I; repeat (destruct I as [<-|I]; [reflexivity|]); destruct I. }
    unfold freq_factor in *. rewrite !KV by inks. split; assumption.
Qed.
Lemma quant_vals (t l c a : R) p q : av_quant RA t l c p = Ok (a, q) -> (forall k, pn q k = pn p k) /\ (forall k, pb q k = pb p k).
Proof.
  intro Q. assert (F := av_quant_frame RA t l c p (a, q) Q). cbn [snd] in F. destruct F as (F1 & _ & F3 & _). split; intro k; [apply F1 | apply F3]; intros [].
Qed.
Lemma distance_stats_ext v w pp interf : (forall k, v k = w k) -> distance_stats w pp interf -> distance_stats v pp interf.
Proof.
  intro E. unfold distance_stats, curve_at, effective_distance, location_dev, irregularity_at. rewrite !E. auto.
Qed.
Lemma avar_stats (t l c a : R) p q lv : stat_state p -> avar RA t l c p = Ok (a, q) -> pz p LVAR = Some lv -> (0 < lv)%Z ->
  exists v pp interf, values q stat_keys v /\ pb q WL = Some pp /\ pb q WS = Some interf /\ (pp = false -> values q [DH; WN] v) /\
    distance_stats v pp interf /\
    ((1 < lv)%Z -> values q [HE0; HE1; WN] v /\ v DEXA = equal_distance v) /\
    ((2 < lv)%Z -> v GM = freq_factor v CFM1 CFM2 CFM3 /\ v GP = freq_factor v CFP1 CFP2 CFP3).
Proof.
  intros S H L L0. assert (CQ := stat_cache _ _ _ _ _ _ S H). assert (P := stat_pre p S).
  assert (P' : (4 < lv)%Z \/ cache_ok p) by (destruct P as [[lv' [L' G]]|P]; [left; congruence | right; exact P]).
  apply avar_inv in H as (p1 & k & R & Q & _ & _).
  destruct (refresh_value p p1 lv R L P' L0) as ((pp & interf & W1 & W2 & D & DHW & x & DI) & HE' & FQ).
  destruct (quant_vals _ _ _ _ _ _ Q) as [EN EB].
  assert (EV : forall k, vals q k = vals p1 k) by (intro z; unfold vals; rewrite EN; reflexivity).
  exists (vals q), pp, interf. split; [|split; [|split; [|split; [|split; [|split]]]]].
  - intros z I. unfold stat_keys in I. apply in_app_or in I as [I|I]; [apply cache_get; [exact CQ | apply in_or_app; left; exact I]|].
    cbn in I. repeat (destruct I as [<-|I]; [first [solve [apply cache_get; [exact CQ | inks]] | rewrite EN, DI; f_equal; symmetry; apply vals_some; rewrite EN; exact DI]|]).
    destruct I.
  - rewrite EB. exact W1.
  - rewrite EB. exact W2.
  - intros E z I. rewrite EN, EV. apply (DHW E z I).
  - eapply distance_stats_ext; [exact EV | exact D].
  - intro L1. destruct (HE' L1) as [E V]. split; [intros z I; rewrite EN, EV; apply (V z I)|].
    unfold equal_distance in *. rewrite !EV. exact E.
  - intro L2. unfold freq_factor in *. rewrite !EV. exact (FQ L2).
Qed.
