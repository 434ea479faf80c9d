(** The losses in the table of area.py. *)
From Coq Require Import Lra Lia Sorting.Sorted.
From Verif Require Import RInst Frame RTac SpecLr SpecAvar SpecQuant SpecScripts SpecLoss SpecAreaRun PfFrame PfLrGen PfPrepGen PfArea PfRegime PfLos PfAtten PfAvarReal PfAvarGen PfAvarApi PfStats PfSetup PfScat PfRef PfLosRef PfRealRun PfTotal3 PfP2P PfAreaGrid PfAreaRun2 PfAreaRun4 PfLoss PfLoss2 Scripts Prep Stats LrProp Dict Arith.
Open Scope R_scope.

(** ** lrprop, after the first call *)
Lemma lrprop_next (b : bool) (d : R) (p q : prop RA) : pz p MDP = Some 0%Z -> ref_ok b p -> los_of p -> lrprop RA d p = Ok q -> 0 < d ->
  ref_ok b q /\ los_of q /\ pz q MDP = Some 0%Z /\ pn q DIST = Some d /\ regime_params (vals q) d /\ (d < vals q DLSA -> pb q WLOS = Some true) /\
  (vals q DLSA <= d -> pn q AREF = Some (attenuation_at (vals q) d)) /\
  (forall a, d < vals q DLSA -> pb p WLOS = Some true -> pn p AREF = Some a -> pn q AREF = Some (Rmax 0 a) /\ same_except [DIST; AREF] [KWX; MDP] [] p q).
Proof.
  intros M J JL H XP. assert (J' := proj1 (lrprop_ref b d p q (ex_intro _ 0%Z (conj M (or_intror (conj eq_refl J)))) H)).
  assert (JL' := lrprop_los_of d p q (or_intror JL) H). split; [exact J'|]. split; [exact JL'|].
  destruct (lrprop_area RA d p q 0 H M ltac:(lia)) as [M' D']. split; [exact M'|]. split; [exact D'|].
  destruct J' as [(V & G & DP & LP) SC]. assert (VS : pn q DLSA = Some (vals q DLSA)) by (apply V; inks).
  destruct (lrprop_stages RA d p q H) as (th & m' & p1 & p2 & p3 & p4 & a & _ & MM & S & D & L & C & AR & EQ). assert (m' = 0%Z) by congruence. subst m'.
  destruct S as [[_ S]|[S _]]; [|contradiction]. subst p1.
  assert (FD := D). apply lr_dist_frame in FD. assert (FL := L). apply lr_los_frame in FL. assert (FC := C). apply lr_scat_frame in FC.
  assert (X4 : pn p4 DIST = Some d) by (subst q; exact D'). assert (X3 : pn p3 DIST = Some d) by (rewrite (fr_pn _ _ _ _ _ _ FC) in X4 by reflexivity; exact X4). assert (X2 : pn p2 DIST = Some d) by (rewrite (fr_pn _ _ _ _ _ _ FL) in X3 by reflexivity; exact X3).
  assert (Y4 : pn p4 DLSA = Some (vals q DLSA)) by (rewrite <- VS; subst q; reflexivity). assert (Y3 : pn p3 DLSA = Some (vals q DLSA)) by (rewrite (fr_pn _ _ _ _ _ _ FC) in Y4 by reflexivity; exact Y4). assert (Y2 : pn p2 DLSA = Some (vals q DLSA)) by (rewrite (fr_pn _ _ _ _ _ _ FL) in Y3 by reflexivity; exact Y3).
  assert (AQ : pn q AREF = Some (Rmax 0 a)) by (subst q; cbn [pn setn]; rewrite nkey_eqb_refl, pymax_R, Rmax_comm; reflexivity).
  unfold regime_params, attenuation_at. destruct (Rlt_dec d (vals q DLSA)) as [LT|GE].
  - assert (C3 : lr_scat RA p3 = Ok p3) by (apply (lr_scat_within RA _ d (vals q DLSA)); [apply pn_getn; exact X3 | apply pn_getn; exact Y3 | |]; cbn [RA n_leb n_Z]; apply r_leb_false; lra).
    assert (p4 = p3) by (change (num RA) with R in *; congruence). subst p4.
    unfold lr_los in L. rewrite (proj2 (pn_getn RA p2 DIST _) X2), (proj2 (pn_getn RA p2 DLSA _) Y2) in L. cbn [bind n_ltb RA] in L. rewrite (proj2 (r_ltb_true _ _) LT) in L.
    apply bind_inv in L as [w [Ew L]]. apply pb_getb in Ew.
    assert (WQ : pb q WLOS = Some true).
    { destruct w; [apply ok_inj in L; subst p3 q; exact Ew|]. apply bind_inv in L as [[[k1 k2] ael] [_ L]]. change (@n_Z RA 0) with 0 in L. rewrite (proj2 (r_ltb_true 0 d) XP) in L. apply bind_inv in L as [l [_ L]]. apply ok_inj in L. subst q p3. reflexivity. }
    destruct (JL' WQ) as (k1' & k2' & ael' & E & E1 & E2 & E3). destruct (coeffs_value q k1' k2' ael' E E1 E2 E3) as [LQ _].
    split; [split; [intros _; exact LQ | lra]|]. split; [intros _; exact WQ|]. split; [lra|].
    intros a' _ WP AP. rewrite (fr_pb _ _ _ _ _ _ FD) in Ew by reflexivity. assert (w = true) by congruence. subst w. apply ok_inj in L. subst p3.
    apply pn_getn in AR. rewrite (fr_pn _ _ _ _ _ _ FD) in AR by reflexivity. split; [rewrite AQ; congruence|]. subst q. apply fr_setn; [reflexivity|]. eapply fr_weaken; [|exact FD]. reflexivity.
  - split; [|split; [lra|split; [|intros; lra]]].
    all: assert (L2 : lr_los RA p2 = Ok p2) by (apply (lr_los_beyond RA p2 d (vals q DLSA)); [apply pn_getn; exact X2 | apply pn_getn; exact Y2 | apply r_ltb_false; lra]).
    all: assert (p3 = p2) by (change (num RA) with R in *; congruence); subst p3; clear L L2 FL.
    all: unfold lr_scat in C; rewrite (proj2 (pn_getn RA p2 DIST _) X2), (proj2 (pn_getn RA p2 DLSA _) Y2) in C; cbn [bind RA n_leb] in C; rewrite (proj2 (r_leb_true (vals q DLSA) d)) in C by lra; rewrite orb_true_r in C.
    all: apply bind_inv in C as [w [Ew C]]; apply pb_getb in Ew; apply bind_inv in C as [s [Es C]]; apply bind_inv in C as [dx [Ed C]].
    all: assert (WS_ : pb s WSCAT = Some true) by (destruct w; [apply ok_inj in Es; subst s; exact Ew | apply lr_scat_setup_inv in Es as (? & ? & ? & _ & _ & _ & W & _); exact W]).
    all: assert (FA : same_except [AREF] [] [] s q) by
      (subst q; apply fr_setn; [reflexivity|]; destruct (_ <? _)%num; apply bind_inv in C as [? [_ C]]; apply bind_inv in C as [? [_ C]]; apply ok_inj in C; subst p4; (apply fr_setn; [reflexivity | apply fr_refl])).
    all: assert (WQ : pb q WSCAT = Some true) by (rewrite (fr_pb _ _ _ _ _ _ FA) by reflexivity; exact WS_).
    all: destruct SC as [[W _]|(_ & SP & VV)]; [congruence|].
    + split; [lra | intros _; exact SP].
    + intros _. rewrite AQ. f_equal. f_equal.
      apply pn_getn in Ed. rewrite (vals_some q DX dx) by (rewrite (fr_pn _ _ _ _ _ _ FA) by reflexivity; exact Ed).
      cbn [RA n_ltb] in C. destruct (r_ltb dx d) eqn:B; rbool; destruct (Rle_dec d dx); try lra;
        apply bind_inv in C as [u [U C]]; apply bind_inv in C as [w' [W' C]]; apply ok_inj in C; subst p4; apply pn_getn in U, W', AR; cbn in AR; injection AR as <-; cbn [RA n_add n_mul].
      * rewrite (vals_some q AES u), (vals_some q EMS w') by (rewrite (fr_pn _ _ _ _ _ _ FA) by reflexivity; assumption). reflexivity.
      * rewrite (vals_some q AED u), (vals_some q EMD w') by (rewrite (fr_pn _ _ _ _ _ _ FA) by reflexivity; assumption). reflexivity.
Qed.

(** ** avar, after the first call *)
Definition kept_stats (k m : Z) (p : prop RA) : Prop :=
  cache_ok p /\ map (vals p) climate_keys = @climate_row RA k /\ vals p GM = freq_factor (vals p) CFM1 CFM2 CFM3 /\ vals p GP = freq_factor (vals p) CFP1 CFP2 CFP3 /\
  vals p DEXA = equal_distance (vals p) /\ pb p WL = Some (no_locations m) /\ pb p WS = Some (no_situations m) /\ pz p KDV = Some (variability_mode m).
Lemma kept_same k m (p q : prop RA) : (forall j, In j (HE0 :: HE1 :: WN :: cache_n) -> pn q j = pn p j) -> pb q WL = pb p WL -> pb q WS = pb p WS -> pz q KDV = pz p KDV -> kept_stats k m p -> kept_stats k m q.
Proof.
  intros E B1 B2 Z (C & C1 & C2 & C3 & C4 & C5 & C6 & C7). assert (V : forall j, In j (HE0 :: HE1 :: WN :: cache_n) -> vals q j = vals p j) by (intros j I; unfold vals; rewrite E by exact I; reflexivity).
  split; [eapply cache_same; [|exact C]; intros j I; apply E; do 3 right; exact I|].
  split; [rewrite <- C1; apply map_ext_in; intros j I; apply V; do 3 right; apply in_or_app; left; exact I|].
  unfold freq_factor, equal_distance in *. rewrite !V by inks. rewrite B1, B2, Z. auto 8.
Qed.
Lemma avar_keeps k m lv (t l c a : R) (p q : prop RA) : avar RA t l c p = Ok (a, q) -> pz p LVAR = Some lv ->
  ((4 < lv)%Z /\ k = climate_used k /\ pz p KLIM = Some k /\ pz p MDVAR = Some m) \/ ((lv <= 1)%Z /\ kept_stats k m p) ->
  kept_stats k m q /\ ((0 < lv)%Z -> full_statistics k m (vals q)) /\ a = attenuation_for (vals q) m t l c.
Proof.
  intros H L [(G & KU & K & M)|(G & KS)].
  - destruct (avar_complete p lv k m t l c a q L G K M H) as (_ & FS & AL). rewrite <- KU in FS. split; [|split; [intros _; exact FS | exact (AL _ _ _ _ _ H)]].
    assert (C := stat_cache _ _ _ _ _ _ (st_full _ _ L G) H). destruct FS as (F1 & F2 & F3 & F4 & _).
    destruct (avar_mode_api RA _ _ _ _ _ _ _ _ H L ltac:(lia) M) as (X2 & X1 & _ & _ & X).
    split; [exact C|]. do 4 (split; [assumption|]). split; [exact X1|]. split; [exact X2|].
    unfold variability_mode, no_locations, without_situations, no_situations. destruct (_ && _)%bool; [exact X | apply X].
  - assert (F := C27_effects RA _ _ _ _ _ _ _ H L). destruct F as [_ F]. apply avar_inv in H as (p1 & k1 & R & Q & KD & ->).
    destruct (quant_vals _ _ _ _ _ _ Q) as [EN EB]. assert (EV : forall k, vals q k = vals p1 k) by (intro z; unfold vals; rewrite EN; reflexivity).
    assert (FQ := av_quant_frame RA t l c p1 (_, q) Q). cbn [snd] in FQ.
    assert (KS1 : kept_stats k m p1 /\ ((0 < lv)%Z -> full_statistics k m (vals p1))).
    { unfold av_refresh in R. rewrite (proj2 (pz_getz RA p LVAR lv) L) in R. cbn [bind] in R. destruct (Z.ltb_spec 0 lv) as [P|P].
      2: { apply ok_inj in R. subst p1. split; [exact KS | lia]. }
      assert (lv = 1%Z) by lia. subst lv. cbn [Z.ltb Z.compare Pos.compare Pos.compare_cont bind] in R.
      assert (FR := av_dist_frame RA p p1 R). cbn beta in FR. destruct KS as ((C0 & Cg & Cd & Cs) & C1 & C2 & C3 & C4 & C5 & C6 & C7).
      assert (CQ := av_dist_stat _ _ C0 Cg R).
      destruct (dist_value p p1 C0 Cg Cd R) as (pp & interf & W1 & W2 & DS & _).
      assert (E : forall j, In j (HE0 :: HE1 :: WN :: climate_keys ++ [GM; GP; DEXA]) -> pn p1 j = pn p j).
      { intros j I. apply (fr_pn _ _ _ _ _ _ FR). cbn in I. repeat (destruct I as [<-|I]; [reflexivity|]). destruct I. }
      assert (V : forall j, In j (HE0 :: HE1 :: WN :: climate_keys ++ [GM; GP; DEXA]) -> vals p1 j = vals p j) by (intros j I; unfold vals; rewrite E by exact I; reflexivity).
      assert (Y1 : map (vals p1) climate_keys = @climate_row RA k) by (rewrite <- C1; apply map_ext_in; intros j I; apply V; do 3 right; apply in_or_app; left; exact I).
      assert (Y2 : vals p1 GM = freq_factor (vals p1) CFM1 CFM2 CFM3) by (unfold freq_factor in *; rewrite !V by inks; exact C2).
      assert (Y3 : vals p1 GP = freq_factor (vals p1) CFP1 CFP2 CFP3) by (unfold freq_factor in *; rewrite !V by inks; exact C3).
      assert (Y4 : vals p1 DEXA = equal_distance (vals p1)) by (unfold equal_distance in *; rewrite !V by inks; exact C4).
      assert (Y5 : pb p1 WL = Some (no_locations m)) by (rewrite (fr_pb _ _ _ _ _ _ FR) by reflexivity; exact C5). assert (Y6 : pb p1 WS = Some (no_situations m)) by (rewrite (fr_pb _ _ _ _ _ _ FR) by reflexivity; exact C6).
      split.
      - split; [|do 6 (split; [assumption|]); rewrite (fr_pz _ _ _ _ _ _ FR) by reflexivity; exact C7].
        split; [eapply row_same; [|exact C0]; intros j I; apply E; do 3 right; apply in_or_app; left; exact I|].
        split; [eapply gain_same; [|exact Cg]; intros j I; apply E; cbn in I; repeat (destruct I as [<-|I]; [inks|]); destruct I|].
        split; [eapply dexa_same; [|exact Cd]; intros j I; apply E; cbn in I; repeat (destruct I as [<-|I]; [inks|]); destruct I | exact CQ].
      - intros _. split; [exact Y1|]. split; [exact Y2|]. split; [exact Y3|]. split; [exact Y4|]. assert (pp = no_locations m) as <- by congruence. assert (interf = no_situations m) as <- by congruence. exact DS. }
    destruct KS1 as [KS1 FS1]. assert (KM : k1 = variability_mode m) by (destruct KS1 as (_ & _ & _ & _ & _ & _ & _ & K7); rewrite (fr_pz _ _ _ _ _ _ FQ) in KD by reflexivity; congruence).
    split; [|split].
    + eapply kept_same; [intros j _; apply EN | apply EB | apply EB | apply (fr_pz _ _ _ _ _ _ FQ); reflexivity | exact KS1].
    + intro P. destruct (FS1 P) as (F1 & F2 & F3 & F4 & F5). split; [rewrite <- F1; apply map_ext; exact EV|]. unfold freq_factor, equal_distance in *. rewrite !EV. do 3 (split; [assumption|]). eapply distance_stats_ext; [exact EV | exact F5].
    + unfold attenuation_for. rewrite KM. reflexivity.
Qed.

(** ** One distance *)
Definition after_lr (w : nkey -> R) (x0 x : R) (q : prop RA) : Prop :=
  pz q MDP = Some 0%Z /\ ref_ok false q /\ los_of q /\ values q (ENS :: setup_inputs) w /\ pn q DIST = Some x /\ regime_params (vals q) x /\
  pn q AREF = Some (attenuation_at (vals q) (if Rlt_dec x (vals q DLSA) then x0 else x)) /\ (x < vals q DLSA -> pb q WLOS = Some true).
Lemma after_same w x0 x (p q : prop RA) : same_except cache_n [KLIM; KWX; KDV; LVAR] [WS; WL] p q -> after_lr w x0 x p -> after_lr w x0 x q.
Proof.
  intros F (M & (J & JS) & JL & V & D & RG & AR & WL_).
  assert (VV : forall k, ~ In k cache_n -> vals p k = vals q k) by (intros k N; unfold vals; rewrite (proj1 F k N); reflexivity).
  split; [rewrite (fr_pz _ _ _ _ _ _ F) by reflexivity; exact M|]. split; [split; [eapply setup_ok_frame | eapply scat_of_frame]; try exact F; try reflexivity; assumption|].
  split; [eapply los_of_frame; try exact F; try reflexivity; exact JL|].
  split; [intros k I; rewrite (fr_pn _ _ _ _ _ k F) by (cbn in I; repeat (destruct I as [<-|I]; [reflexivity|]); destruct I); apply V; exact I|].
  split; [rewrite (fr_pn _ _ _ _ _ _ F) by reflexivity; exact D|]. split; [exact (regime_ext _ _ _ VV RG)|].
  rewrite <- (VV DLSA) by (cbn; intuition discriminate). split; [|rewrite (fr_pb _ _ _ _ _ _ F) by reflexivity; exact WL_].
  rewrite (fr_pn _ _ _ _ _ _ F) by reflexivity. rewrite AR. f_equal. apply attenuation_ext. exact VV.
Qed.
Lemma rows_zero m k (D FS zt zl : R) qz : forall (p p' : prop RA) rows, pz p LVAR = Some 0%Z -> kept_stats k m p -> area_rows RA D FS zt zl qz p = Ok (rows, p') ->
  rows = map (fun x => (D, fst x, FS + attenuation_for (vals p) m zt zl (snd x))) qz /\ same_except [] [KWX] [] p p'.
Proof.
  induction qz as [|[qc zc] qz IH]; intros p p' rows L K H; cbn [area_rows] in H; [(apply ok_pair in H as [HE1_ HE2_]; subst); split; [reflexivity | apply fr_refl]|].
  apply bind_inv in H as [[a p1] [Ea H]]. cbn [fst snd] in H. apply bind_inv in H as [[rs p2] [Er H]]. cbn [fst snd] in H. (apply ok_pair in H as [HE1_ HE2_]; subst).
  assert (F : same_except [] [KWX] [] p p1).
  { assert (H := Ea). apply avar_inv in H as (r & k1 & R & Q & _ & _). unfold av_refresh in R. rewrite (proj2 (pz_getz RA p LVAR _) L) in R. cbn in R. apply ok_inj in R. subst r.
    exact (av_quant_frame RA zt zl zc p (_, p1) Q). }
  destruct (avar_keeps k m 0 _ _ _ _ _ _ Ea L (or_intror (conj Z.le_0_1 K))) as (K1 & _ & ->).
  assert (L1 : pz p1 LVAR = Some 0%Z) by (rewrite (fr_pz _ _ _ _ _ _ F) by reflexivity; exact L).
  destruct (IH p1 p2 rs L1 K1 Er) as [-> F2]. assert (V : forall j, vals p1 j = vals p j) by (intro j; unfold vals; rewrite (fr_pn _ _ _ _ _ j F) by reflexivity; reflexivity).
  assert (EX : forall c, attenuation_for (vals p1) m zt zl c = attenuation_for (vals p) m zt zl c) by (intro c; unfold attenuation_for; f_equal; apply raw_ext; exact V).
  split; [|exact (fr_trans _ _ _ _ _ _ F F2)]. cbn [map fst snd]. cbn [n_add RA]. rewrite EX. f_equal. apply map_ext. intro x. rewrite EX. reflexivity.
Qed.
Lemma rows_loss k m lv (D FS zt zl : R) qz (p p' : prop RA) rows : qz <> [] -> pz p LVAR = Some lv -> (0 < lv)%Z ->
  ((4 < lv)%Z /\ k = climate_used k /\ pz p KLIM = Some k /\ pz p MDVAR = Some m) \/ ((lv <= 1)%Z /\ kept_stats k m p) ->
  area_rows RA D FS zt zl qz p = Ok (rows, p') ->
  full_statistics k m (vals p') /\ rows = map (fun x => (D, fst x, FS + attenuation_for (vals p') m zt zl (snd x))) qz /\ pz p' LVAR = Some 0%Z /\ kept_stats k m p' /\
  same_except cache_n [KLIM; KWX; KDV; LVAR] [WS; WL] p p'.
Proof.
  intros N L P ST H. destruct qz as [|[qc zc] qz]; [congruence|]. cbn [area_rows] in H.
  apply bind_inv in H as [[a p1] [Ea H]]. cbn [fst snd] in H. apply bind_inv in H as [[rs p2] [Er H]]. cbn [fst snd] in H. (apply ok_pair in H as [HE1_ HE2_]; subst).
  destruct (avar_keeps k m lv _ _ _ _ _ _ Ea L ST) as (K1 & FS1 & ->). destruct (C27_effects RA _ _ _ _ _ _ _ Ea L) as [L1 F1]. rewrite (proj2 (Z.ltb_lt 0 lv) P) in L1.
  destruct (rows_zero m k _ _ _ _ _ _ _ _ L1 K1 Er) as [-> F2]. assert (V : forall j, vals p2 j = vals p1 j) by (intro j; unfold vals; rewrite (fr_pn _ _ _ _ _ j F2) by reflexivity; reflexivity).
  assert (EX : forall c, attenuation_for (vals p2) m zt zl c = attenuation_for (vals p1) m zt zl c) by (intro c; unfold attenuation_for; f_equal; apply raw_ext; exact V).
  split; [|split; [|split; [|split]]].
  - destruct (FS1 P) as (f1 & f2 & f3 & f4 & f5). split; [rewrite <- f1; apply map_ext; exact V|]. unfold freq_factor, equal_distance in *. rewrite !V. do 3 (split; [assumption|]). eapply distance_stats_ext; [exact V | exact f5].
  - cbn [map fst snd n_add RA]. rewrite EX. f_equal. apply map_ext. intro x. rewrite EX. reflexivity.
  - rewrite (fr_pz _ _ _ _ _ _ F2) by reflexivity. exact L1.
  - eapply kept_same; [intros j _; apply (fr_pn _ _ _ _ _ _ F2); reflexivity | apply (fr_pb _ _ _ _ _ _ F2); reflexivity | apply (fr_pb _ _ _ _ _ _ F2); reflexivity | apply (fr_pz _ _ _ _ _ _ F2); reflexivity | exact K1].
  - eapply fr_trans; [exact F1|]. eapply fr_weaken; [|exact F2]. reflexivity.
Qed.
(** The rows at distance d, in km. *)
Definition group_at (w : nkey -> R) (d0 zt zl : R) (qz : list (R * R)) (d : R) (g : list (R * R * R)) : Prop := exists v,
  (forall k, In k (ENS :: setup_inputs) -> v k = w k) /\ reference_params v false /\ area_prediction v (d0 * 1000) (d * 1000) 5 3 /\
  g = map (fun x => (d, fst x, free_space v (d * 1000) + attenuation_for v 3 zt zl (snd x))) qz.
Lemma group_rows w (d0 d zt zl wn dist l : R) (qz : list (R * R)) lv (q p' : prop RA) rows : qz <> [] -> after_lr w (d0 * 1000) (d * 1000) q -> pz q LVAR = Some lv -> (0 < lv)%Z ->
  ((4 < lv)%Z /\ pz q KLIM = Some 5%Z /\ pz q MDVAR = Some 3%Z) \/ ((lv <= 1)%Z /\ kept_stats 5 3 q) ->
  @getn RA q WN = Ok wn -> @getn RA q DIST = Ok dist -> @np_log RA (#2 * (wn : num RA) * (dist : num RA))%num = Ok l -> area_rows RA d (8685890 // 1000000 * (l : num RA))%num zt zl qz q = Ok (rows, p') ->
  group_at w d0 zt zl qz d rows /\ after_lr w (d0 * 1000) (d * 1000) p' /\ pz p' LVAR = Some 0%Z /\ kept_stats 5 3 p'.
Proof.
  intros N A L P ST Ewn Ed El H.
  destruct (rows_loss 5 3 lv _ _ _ _ _ _ _ _ N L P ltac:(destruct ST as [(a & b & c)|ST]; [left; split; [exact a|]; split; [reflexivity | auto] | right; exact ST]) H) as (FS & -> & L' & K' & F).
  assert (A' := after_same _ _ _ _ _ F A). split; [|auto]. assert (B := A'). destruct B as (_ & ((_ & GP & DP & LP) & _) & _ & V & D & RG & AR & _).
  exists (vals p'). split; [intros k I; apply vals_some, V, I|]. split; [exact (conj GP (conj DP LP))|]. split.
  - split; [apply vals_some; exact D|]. split; [exact RG|]. split; [apply vals_some; exact AR | exact FS].
  - apply map_ext. intro x. f_equal. f_equal. unfold free_space. destruct A as (_ & _ & _ & V0 & D0 & _). apply pn_getn in Ewn, Ed. rewrite V0 in Ewn by inks. injection Ewn as <-.
    assert (dist = d * 1000) by congruence. subst dist. cbn [np_log RA n_mul n_Z] in El. apply r_log_inv in El as (_ & ->). rewrite (vals_some _ _ _ (V WN ltac:(inks))). cbn [n_lit n_mul RA]. lra.
Qed.
Lemma dlsa_of v w b : (forall k, In k setup_inputs -> v k = w k) -> reference_params v b -> v DLSA = sqrt (2 * w HE0 / w GME) + sqrt (2 * w HE1 / w GME).
Proof. intros E ((g1 & g2 & g3 & _) & _). rewrite g3, g1, g2, !E by inks. reflexivity. Qed.
Lemma ref_params b (q : prop RA) : ref_ok b q -> reference_params (vals q) b. Proof. intros ((_ & A & B & C) & _). exact (conj A (conj B C)). Qed.
Lemma lr_after w (x0 xp x : R) (p q : prop RA) : after_lr w x0 xp p -> 0 < x -> xp < x -> lrprop RA x p = Ok q -> after_lr w x0 x q.
Proof.
  intros (M & J & JL & V & D & RG & AR & W) XP LT H. destruct (lrprop_next false x p q M J JL H XP) as (J' & JL' & M' & D' & RG' & W' & BEY & STALE).
  assert (F := lrprop_frame RA x p q H). cbn beta in F.
  assert (V' : values q (ENS :: setup_inputs) w) by (intros k I; rewrite (fr_pn _ _ _ _ _ k F) by (cbn in I; repeat (destruct I as [<-|I]; [reflexivity|]); destruct I); apply V; exact I).
  assert (E : vals q DLSA = vals p DLSA).
  { rewrite (dlsa_of (vals q) w false), (dlsa_of (vals p) w false); [reflexivity | | apply ref_params; exact J | | apply ref_params; exact J'];
    intros k I; apply vals_some; [apply V | apply V']; right; exact I. }
  do 6 (split; [assumption|]). split; [|exact W'].
  destruct (Rlt_dec x (vals q DLSA)) as [I|I]; [|apply BEY; lra]. rewrite <- E in AR, W. destruct (Rlt_dec xp (vals q DLSA)) as [I'|I']; [|lra].
  destruct (STALE _ I (W I') AR) as [A' F']. rewrite A'. f_equal. unfold attenuation_at.
  rewrite !(fun k N => vals_same _ _ _ p q k F' N) by reflexivity.
  match goal with |- Rmax 0 (Rmax 0 ?y) = _ => set (z := y) end. rewrite (Rmax_right 0 (Rmax 0 z)) by apply Rmax_l. reflexivity.
Qed.
Lemma area_losses w (d0 zt zl DS2 : R) qz NDC : qz <> [] -> forall n JD (D DT dp : R) (p : prop RA) rows, after_lr w (d0 * 1000) (dp * 1000) p -> pz p LVAR = Some 0%Z -> kept_stats 5 3 p -> 0 < dp ->
  StronglySorted Rlt (dp :: dists RA n JD NDC D DT DS2) -> area_loop RA n JD NDC D DT DS2 zt zl qz p = Ok rows ->
  exists groups, rows = concat groups /\ Forall2 (group_at w d0 zt zl qz) (dists RA n JD NDC D DT DS2) groups.
Proof.
  intros N. induction n as [|n IH]; intros JD D DT dp p rows A L K P S H; cbn [area_loop dists] in *; cbv zeta in *; [apply ok_inj in H; subst rows; exists []; split; [reflexivity | constructor]|].
  apply StronglySorted_inv in S as [S FA]. inversion FA as [|? ? LT _]; subst. 
  apply bind_inv in H as [lv [El H]]. apply pz_getz in El. assert (lv = 0%Z) by congruence. subst lv. change (Z.max 1 0) with 1%Z in H.
  apply bind_inv in H as [q [E H]]. apply bind_inv in H as [wn [Ewn H]]. apply bind_inv in H as [dist [Ed H]]. apply bind_inv in H as [l [Ell H]].
  apply bind_inv in H as [[rs p'] [Er H]]. cbn [fst snd] in H. apply bind_inv in H as [rest [Et H]]. apply ok_inj in H. subst rows.
  assert (A1 : after_lr w (d0 * 1000) (dp * 1000) (setz p LVAR 1)) by (eapply after_same; [|exact A]; apply fr_setz; [reflexivity | apply fr_refl]).
  cbn [n_mul n_Z RA] in E. assert (AQ := lr_after w _ _ (D * 1000) _ q A1 ltac:(lra) ltac:(lra) E). assert (F := lrprop_frame RA _ _ _ E). cbn beta in F.
  assert (KQ : kept_stats 5 3 q).
  { eapply kept_same; [| apply (fr_pb _ _ _ _ _ _ F); reflexivity | apply (fr_pb _ _ _ _ _ _ F); reflexivity | apply (fr_pz _ _ _ _ _ _ F); reflexivity | exact K].
    intros j I. apply (fr_pn _ _ _ _ _ _ F). cbn in I. repeat (destruct I as [<-|I]; [reflexivity|]). destruct I. }
  assert (LQ : pz q LVAR = Some 1%Z) by (rewrite (fr_pz _ _ _ _ _ _ F) by reflexivity; reflexivity).
  destruct (group_rows w d0 D zt zl wn dist l qz 1 q p' rs N AQ LQ Z.lt_0_1 (or_intror (conj (Z.le_refl 1) KQ)) Ewn Ed Ell Er) as (G & A' & L' & K').
  destruct (IH _ _ _ D p' rest A' L' K' ltac:(lra) S Et) as (groups & -> & FG). exists (rs :: groups). split; [reflexivity|]. constructor; assumption.
Qed.

(** ** The script *)
Lemma area_env_inv (p q : prop RA) : area_env RA p = Ok q -> pz q LVAR = Some 0%Z /\ pz q KLIMX = Some 5%Z /\ pz q MDVARX = Some 3%Z /\ exists e, pn q ENS = Some e.
Proof.
  intro H. unfold area_env, script_gme in H. apply bind_inv in H as [fm [_ H]]. apply bind_inv in H as [wn [_ H]]. apply bind_inv in H as [p1 [E1 H]]. apply bind_inv in E1 as [t [_ E1]]. apply bind_inv in E1 as [e [_ E1]]. apply ok_inj in E1. subst p1.
  apply bind_inv in H as [t' [_ H]]. apply bind_inv in H as [s [_ H]]. apply bind_inv in H as [ip [_ H]]. apply bind_inv in H as [[zr zi] [_ H]]. apply ok_inj in H. subst q.
  do 3 (split; [reflexivity|]). eexists. reflexivity.
Qed.
Lemma first_losses w (D DT DS2 zt zl : R) (qz : list (R * R)) NDC n JD (q : prop RA) rows : qz <> [] -> pz q MDP = Some 1%Z -> pz q LVAR = Some 5%Z -> pz q KLIM = Some 5%Z -> pz q MDVAR = Some 3%Z ->
  (forall q', lrprop RA (D * 1000)%R (setz q LVAR 5) = Ok q' -> values q (ENS :: setup_inputs) w) -> 0 < D ->
  StronglySorted Rlt (dists RA (S n) JD NDC D DT DS2) -> area_loop RA (S n) JD NDC D DT DS2 zt zl qz q = Ok rows ->
  exists groups, rows = concat groups /\ Forall2 (group_at w D zt zl qz) (dists RA (S n) JD NDC D DT DS2) groups.
Proof.
  intros N M L K MV VW P S H. cbn [area_loop dists] in *. cbv zeta in *.
  apply bind_inv in H as [lv [El H]]. apply pz_getz in El. assert (lv = 5%Z) by congruence. subst lv. change (Z.max 1 5) with 5%Z in H. set (p := setz q LVAR 5) in *.
  apply bind_inv in H as [r [E H]]. apply bind_inv in H as [wn [Ewn H]]. apply bind_inv in H as [dist [Ed H]]. apply bind_inv in H as [l [Ell H]].
  apply bind_inv in H as [[rs p'] [Er H]]. cbn [fst snd] in H. apply bind_inv in H as [rest [Et H]]. apply ok_inj in H. subst rows. cbn [n_mul n_Z RA] in E.
  specialize (VW r E). assert (Mp : pz p MDP = Some 1%Z) by exact M. destruct (lrprop_area RA _ p r 1 E Mp ltac:(lia)) as [MR DR].
  destruct (lrprop_complete _ (D * 1000) p r 1 Mp ltac:(lia) E DR ltac:(lra)) as (_ & _ & RP & RG & AR). assert (F := lrprop_frame RA _ _ _ E). cbn beta in F.
  assert (LC : lr_calls RA [(D * 1000)%R] p = Ok r) by (cbn [lr_calls]; change (num RA) with R in *; rewrite E; reflexivity).
  assert (A : after_lr w (D * 1000) (D * 1000) r).
  { split; [exact MR|]. split; [exact (lr_calls_ref _ [] p r 1 Mp ltac:(lia) LC)|]. split; [exact (lr_calls_los_of _ [] p r 1 Mp ltac:(lia) LC)|].
    split; [intros k I; rewrite (fr_pn _ _ _ _ _ k F) by (cbn in I; repeat (destruct I as [<-|I]; [reflexivity|]); destruct I); apply VW; exact I|].
    split; [exact DR|]. split; [exact RG|]. split; [destruct (Rlt_dec _ _); exact AR|].
    intro LT. destruct (lrprop_stages RA _ p r E) as (th & m' & p1 & p2 & p3 & p4 & a & _ & _ & _ & _ & L2 & C & _ & EQ).
    assert (FC := C). apply lr_scat_frame in FC. assert (FL := L2). apply lr_los_frame in FL. assert (X4 : pn p4 DIST = Some (D * 1000)%R) by (rewrite EQ in DR; exact DR).
    assert (X2 : pn p2 DIST = Some (D * 1000)%R) by (rewrite (fr_pn _ _ _ _ _ _ FC), (fr_pn _ _ _ _ _ _ FL) in X4 by reflexivity; exact X4).
    assert (Y : pn r DLSA = Some (vals r DLSA)) by (destruct (lr_calls_ref _ [] p r 1 Mp ltac:(lia) LC) as [(V & _) _]; apply V; inks).
    assert (Y4 : pn p4 DLSA = Some (vals r DLSA)) by (rewrite <- Y, EQ; reflexivity).
    assert (Y2 : pn p2 DLSA = Some (vals r DLSA)) by (rewrite (fr_pn _ _ _ _ _ _ FC), (fr_pn _ _ _ _ _ _ FL) in Y4 by reflexivity; exact Y4).
    unfold lr_los in L2. rewrite (proj2 (pn_getn RA p2 DIST _) X2), (proj2 (pn_getn RA p2 DLSA _) Y2) in L2. cbn [bind n_ltb RA] in L2. rewrite (proj2 (r_ltb_true _ _) LT) in L2.
    apply bind_inv in L2 as [w' [Ew L2]]. apply pb_getb in Ew. rewrite EQ. cbn [pb setn]. rewrite (fr_pb _ _ _ _ _ _ FC) by reflexivity.
    destruct w'; [apply ok_inj in L2; subst p3; exact Ew|]. apply bind_inv in L2 as [[[k1 k2] ael] [_ L2]]. change (@n_Z RA 0) with 0 in L2. rewrite (proj2 (r_ltb_true 0 (D * 1000))) in L2 by lra. apply bind_inv in L2 as [ll [_ L2]]. apply ok_inj in L2. subst p3. reflexivity. }
  assert (KR : pz r KLIM = Some 5%Z) by (rewrite (fr_pz _ _ _ _ _ _ F) by reflexivity; exact K). assert (VR : pz r MDVAR = Some 3%Z) by (rewrite (fr_pz _ _ _ _ _ _ F) by reflexivity; exact MV). assert (LR : pz r LVAR = Some 5%Z) by (rewrite (fr_pz _ _ _ _ _ _ F) by reflexivity; reflexivity).
  assert (G5 : (4 < 5)%Z) by lia. assert (G0 : (0 < 5)%Z) by lia.
  destruct (group_rows w D D zt zl wn dist l qz 5 r p' rs N A LR G0 (or_introl (conj G5 (conj KR VR))) Ewn Ed Ell Er) as (G & A' & L' & K').
  destruct (area_losses w D zt zl DS2 qz NDC N n _ _ _ D p' rest A' L' K' P S Et) as (groups & -> & FG). exists (rs :: groups). split; [reflexivity|]. constructor; assumption.
Qed.
Lemma pct_list (l m : list R) : mapM (fun x : num RA => @n_div RA x (@n_Z RA 100)) l = Ok m -> m = map (fun x => x / 100) l.
Proof.
  revert m. induction l as [|x l IH]; intros m H; cbn [mapM] in H; [apply ok_inj in H; subst; reflexivity|]. change (@n_Z RA 100) with (IZR 100) in *. rewrite pct_ok in H. cbn [bind] in H. apply bind_inv in H as [y [E H]]. apply ok_inj in H. subst m. rewrite (IH y E). reflexivity.
Qed.
Lemma area_loss (c : area_cfg RA) (p : prop RA) rows : cfg_QC RA c <> [] -> itmlogic_area_cfg RA c p = Ok rows -> exists zt zl zc n1 n2 groups,
  qerfi RA [cfg_QT RA c / 100] = Ok [zt] /\ qerfi RA [cfg_QL RA c / 100] = Ok [zl] /\ qerfi RA (map (fun q => q / 100) (cfg_QC RA c)) = Ok zc /\
  area_grid_counts c n1 n2 /\ rows = concat groups /\
  let D0 := start_distance (cfg_D0 RA c) (cfg_DS1 RA c) in
  Forall2 (fun d g => exists v, area_values (cfg_KST0 RA c) (cfg_KST1 RA c) p v /\ area_prediction v (D0 * 1000) (d * 1000) 5 3 /\
    g = map (fun x => (d, fst x, free_space v (d * 1000) + attenuation_for v 3 zt zl (snd x))) (combine (cfg_QC RA c) zc)) (area_distances D0 (cfg_DS1 RA c) (cfg_DS2 RA c) n1 n2) groups.
Proof.
  intros NE H. destruct (area_grid_spec c p rows H) as (LD & SP & _). set (D0 := start_distance (cfg_D0 RA c) (cfg_DS1 RA c)) in *.
  unfold itmlogic_area_cfg in H. apply bind_inv in H as [qt [Eqt H]]. apply bind_inv in H as [zt [Ezt H]]. apply bind_inv in H as [ql [Eql H]]. apply bind_inv in H as [zl [Ezl H]].
  apply bind_inv in H as [qc [Eqc H]]. apply bind_inv in H as [zc [Ezc H]]. apply bind_inv in H as [[[[E0 DS] ND] NDC] [Gr H]]. cbn [fst snd] in H.
  apply bind_inv in H as [p1 [Eenv H]]. apply bind_inv in H as [p2 [Eq H]]. apply bind_inv in H as [DT [E3 H]]. apply opt_res_inv in E3. subst DS.
  change (@n_Z RA 100) with (IZR 100) in *. rewrite pct_ok in Eqt, Eql. apply ok_inj in Eqt, Eql. subst qt ql. apply pct_list in Eqc. subst qc.
  rewrite grid_from_eq in Gr. fold D0 in Gr. destruct (grid_some D0 (cfg_D1 RA c) (cfg_DS1 RA c) (cfg_D2 RA c) (cfg_DS2 RA c) LD SP) as (n1 & n2 & N & N1 & EG & R1 & R2).
  rewrite EG in Gr. injection Gr as <- <- <- <-. rewrite Nat2Z.id in H.
  assert (ED : dists RA (n1 + n2) 0 N D0 (cfg_DS1 RA c) (cfg_DS2 RA c) = area_distances D0 (cfg_DS1 RA c) (cfg_DS2 RA c) n1 n2).
  { unfold area_distances. destruct R2 as [(_ & _ & -> & _)|(_ & -> & ->)].
    - destruct n1 as [|k]; [lia|]. change (Z.of_nat (Datatypes.S k)) with (0 + Z.of_nat (Datatypes.S k))%Z. rewrite dists_switch by lia. replace (Datatypes.S k - 1)%nat with k by lia. reflexivity.
    - rewrite Nat.add_0_r. rewrite dists_const by lia. cbn [seq map]. rewrite app_nil_r. reflexivity. }
  assert (SO : StronglySorted Rlt (dists RA (n1 + n2) 0 N D0 (cfg_DS1 RA c) (cfg_DS2 RA c))).
  { rewrite ED. apply distances_increasing; [exact SP | | exact N1]. destruct R2 as [(_ & b & _)|(_ & _ & z)]; auto. }
  destruct (area_env_inv p p1 Eenv) as (L0 & K0 & M0 & e & En). destruct (qlra_control RA _ _ _ _ Eq) as (lv & mx & kx & X1 & X2 & X3 & MD & LQ & MQ & KQ & FQ).
  assert (lv = 0%Z) by congruence. assert (mx = 3%Z) by congruence. assert (kx = 5%Z) by congruence. subst lv mx kx. cbn in LQ, MQ, KQ.
  set (w := vals p2).
  assert (VW : forall q', lrprop RA (D0 * 1000)%R (setz p2 LVAR 5) = Ok q' -> values p2 (ENS :: setup_inputs) w).
  { intros q' E k [<-|I]; [rewrite (fr_pn _ _ _ _ _ _ FQ), En by reflexivity; f_equal; symmetry; apply vals_some; rewrite (fr_pn _ _ _ _ _ _ FQ) by reflexivity; exact En|].
    assert (PD : 0 < D0) by apply start_positive. assert (M' : pz (setz p2 LVAR 5) MDP = Some 1%Z) by exact MD. destruct (lrprop_area RA _ _ q' 1 E M' ltac:(lia)) as [_ DR].
    destruct (lrprop_complete _ (D0 * 1000) _ q' 1 M' ltac:(lia) E DR ltac:(lra)) as (V & _). specialize (V k I). change (pn p2 k = Some (vals q' k)) in V. rewrite V. f_equal. symmetry. apply vals_some. exact V. }
  assert (QN : combine (cfg_QC RA c) zc <> []).
  { apply mapM_len in Ezc. rewrite map_length in Ezc. destruct (cfg_QC RA c); [congruence|]. destruct zc; [discriminate Ezc|]. discriminate. }
  destruct (n1 + n2)%nat as [|n] eqn:EN; [lia|].
  assert (VW' : values p2 (ENS :: setup_inputs) w).
  { assert (H2 := H). cbn [area_loop] in H2. apply bind_inv in H2 as [lv [El H2]]. apply pz_getz in El. assert (lv = 5%Z) by congruence. subst lv. apply bind_inv in H2 as [q' [E _]]. exact (VW q' E). }
  destruct (first_losses w D0 _ _ zt zl _ _ n _ p2 rows QN MD LQ KQ MQ VW (start_positive _ _) SO H) as (groups & -> & FG). rewrite ED in FG.
  exists zt, zl, zc, n1, n2, groups. 
  split; [unfold qerfi; cbn [mapM]; change (num RA) with R in *; rewrite Ezt; reflexivity|]. split; [unfold qerfi; cbn [mapM]; change (num RA) with R in *; rewrite Ezl; reflexivity|]. split; [exact Ezc|]. split.
  { unfold area_grid_counts. fold D0. cbv zeta. split; [exact N1|]. split; [exact R1|]. destruct R2 as [(a & b & _ & r)|(n' & _ & z)]; [destruct (Rlt_dec _ _); [|contradiction]; destruct (Rlt_dec _ _); [exact r | contradiction]|].
    destruct (Rlt_dec _ _); [|exact z]. destruct (Rlt_dec _ _); [|exact z]. exfalso. apply n'. split; assumption. }
  split; [reflexivity|]. cbv zeta. revert FG. apply Forall2_impl_gen. intros d g (v & VV & RP & AP & ->). exists v. split; [|auto].
  split; [exact RP|]. exists p1, p2. split; [exact Eenv|]. split; [exact Eq|]. intros k I. rewrite (VW' k I), (VV k I). reflexivity.
Qed.
(** The script as it stands. *)
Lemma area_script_loss (p : prop RA) rows : itmlogic_area RA p = Ok rows -> exists z50 z90 z10 groups,
  deviate RA 50 z50 /\ deviate RA 90 z90 /\ deviate RA 10 z10 /\ rows = concat groups /\
  Forall2 (fun d g => exists v, area_values 2 2 p v /\ area_prediction v 10000 (d * 1000) 5 3 /\
    let loss c : R := free_space v (d * 1000) + attenuation_for v 3 z50 z50 c in g = [(d, 50, loss z50); (d, 90, loss z90); (d, 10, loss z10)]) script_distances groups.
Proof.
  intro H. assert (QN : cfg_QC RA (area_default RA) <> []) by discriminate.
  destruct (area_loss (area_default RA) p rows QN H) as (zt & zl & zc & n1 & n2 & groups & ET & EL & EC & GC & -> & FG). destruct (default_counts n1 n2 GC) as [-> ->].
  cbv zeta in FG. change (cfg_DS1 RA (area_default RA)) with 10 in *. change (cfg_D0 RA (area_default RA)) with 10 in *. change (cfg_DS2 RA (area_default RA)) with 50 in *. change (cfg_QC RA (area_default RA)) with [50; 90; 10] in *.
  change (cfg_QT RA (area_default RA)) with 50 in *. change (cfg_QL RA (area_default RA)) with 50 in *. change (cfg_KST0 RA (area_default RA)) with 2%Z in *. change (cfg_KST1 RA (area_default RA)) with 2%Z in *.
  assert (S10 : start_distance 10 10 = 10) by (unfold start_distance; destruct (Rlt_dec 0 10); lra). rewrite S10, default_distances in FG.
  assert (zl = zt) by congruence. subst zl. unfold qerfi in ET, EC. cbn [mapM map] in ET, EC. apply bind_inv in ET as [a [EA ET]]. apply ok_inj in ET. injection ET as <-.
  change (num RA) with R in *. rewrite EA in EC. cbn [bind] in EC. apply bind_inv in EC as [l [EC1 EC]]. apply ok_inj in EC. subst zc. apply bind_inv in EC1 as [b [EB EC1]]. apply bind_inv in EC1 as [l2 [EC2 EC1]]. apply ok_inj in EC1. subst l.
  apply bind_inv in EC2 as [c [E3 EC2]]. apply ok_inj in EC2. subst l2.
  assert (DV : forall (r : Z) (x : R), qerfi1 RA (IZR r / 100) = Ok x -> deviate RA r x).
  { intros r x E. unfold deviate. exists (IZR r / 100). split; [exact (pct_ok (IZR r))|]. unfold qerfi. cbn [mapM]. change (num RA) with R in *. rewrite E. reflexivity. }
  exists zt, b, c, groups. split; [apply DV; exact EA|]. split; [apply DV; exact EB|]. split; [apply DV; exact E3|]. split; [reflexivity|].
  revert FG. apply Forall2_impl_gen. intros d g (v & V & P & ->). exists v. split; [exact V|]. split; [replace (10 * 1000) with 10000 in P by lra; exact P|]. reflexivity.
Qed.
