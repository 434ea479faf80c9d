(** Values of complete calls of lrprop and avar. *)
From Coq Require Import Lra Lia.
From Verif Require Import RInst Frame RTac SpecLr SpecLoss PfFrame PfLrGen PfArea PfRegime PfLos PfAtten PfAvarReal PfAvarApi PfStats PfSetup PfRef PfLosRef PfTotal3 Stats LrProp Dict Arith.
Open Scope R_scope.

(** ** avar *)
Lemma stats_vals (t l c a : R) p q lv : pz p LVAR = Some lv -> (4 < lv)%Z -> avar RA t l c p = Ok (a, q) ->
  exists pp interf, pb q WL = Some pp /\ pb q WS = Some interf /\ distance_stats (vals q) pp interf /\ vals q DEXA = equal_distance (vals q) /\
    vals q GM = freq_factor (vals q) CFM1 CFM2 CFM3 /\ vals q GP = freq_factor (vals q) CFP1 CFP2 CFP3.
Proof.
  intros L G H. apply avar_inv in H as (p1 & k & R & Q & _ & _).
  destruct (refresh_value p p1 lv R L (or_introl G) ltac:(lia)) as ((pp & interf & W1 & W2 & D & _) & HE' & FQ).
  destruct (quant_vals _ _ _ _ _ _ Q) as [EN EB].
  assert (EV : forall k, vals q k = vals p1 k) by (intro z; unfold vals; rewrite EN; reflexivity).
  exists pp, interf. split; [rewrite EB; exact W1|]. split; [rewrite EB; exact W2|]. split; [eapply distance_stats_ext; [exact EV | exact D]|].
  destruct (HE' ltac:(lia)) as [E _]. split; [unfold equal_distance in *; rewrite !EV; exact E|].
  unfold freq_factor in *. rewrite !EV. exact (FQ ltac:(lia)).
Qed.
Lemma climate_vals (q : prop RA) ks (row : list R) : map (pn q) ks = map Some row -> map (vals q) ks = row.
Proof.
  revert row. induction ks as [|k ks IH]; intros [|x row] H; try discriminate H; [reflexivity|]. cbn [map] in *. injection H as E H. rewrite (vals_some q k x E), (IH row H). reflexivity.
Qed.
Lemma avar_complete p lv k m (t0 l0 c0 a0 : R) q0 : pz p LVAR = Some lv -> (4 < lv)%Z -> pz p KLIM = Some k -> pz p MDVAR = Some m ->
  avar RA t0 l0 c0 p = Ok (a0, q0) ->
  (forall key, ~ In key cache_n -> pn q0 key = pn p key) /\ full_statistics (climate_used k) m (vals q0) /\
  forall (t l c a : R) q, avar RA t l c p = Ok (a, q) -> a = attenuation_for (vals q0) m t l c.
Proof.
  intros L G K M H. split; [|split].
  - intros key N. destruct (C27_effects RA _ _ _ _ _ _ _ H L) as [_ (F & _)]. apply F. exact N.
  - destruct (stats_vals _ _ _ _ _ _ _ L G H) as (pp & interf & W1 & W2 & D & DE & GM_ & GP_).
    destruct (avar_mode_api RA _ _ _ _ _ _ _ _ H L ltac:(lia) M) as (X2 & X1 & _). fold (no_situations m) in X1, X2. fold (without_situations m) in X1. fold (no_locations m) in X1.
    destruct (avar_klim_api RA _ _ _ _ _ _ _ _ H L G K) as (C & _).
    split; [apply climate_vals; exact C|]. split; [exact GM_|]. split; [exact GP_|]. split; [exact DE|].
    assert (pp = no_locations m) as <- by congruence. assert (interf = no_situations m) as <- by congruence. exact D.
  - intros t l c a q H'. apply avar_inv in H as (p1 & k1 & R & Q & _). assert (H2 := H'). apply avar_inv in H' as (p1' & k2 & R' & Q' & KD & ->).
    assert (p1' = p1) by congruence. subst p1'. destruct (quant_vals _ _ _ _ _ _ Q) as [EN _]. destruct (quant_vals _ _ _ _ _ _ Q') as [EN' _].
    destruct (avar_mode_api RA _ _ _ _ _ _ _ _ H2 L ltac:(lia) M) as (_ & _ & _ & _ & X). unfold attenuation_for. f_equal.
    assert (KM : k2 = variability_mode m).
    { unfold variability_mode, no_locations, without_situations, no_situations. destruct (_ && _)%bool; [|destruct X as [X _]]; congruence. }
    rewrite KM. apply raw_ext. intro x. unfold vals. rewrite EN, EN'. reflexivity.
Qed.

(** ** lrprop *)
Lemma lrprop_complete (d x : R) (p q : prop RA) m : pz p MDP = Some m -> m <> 0%Z -> lrprop RA d p = Ok q -> pn q DIST = Some x -> 0 < x ->
  values p setup_inputs (vals q) /\ values q (DIST :: setup_keys) (vals q) /\ reference_params (vals q) (m <? 0)%Z /\ regime_params (vals q) x /\ pn q AREF = Some (attenuation_at (vals q) x).
Proof.
  intros M N H DX_ XP. assert (LC : lr_calls RA [d] p = Ok q) by (cbn [lr_calls]; change (num RA) with R in *; rewrite H; reflexivity).
  destruct (lr_calls_ref d [] p q m M N LC) as [(V & G & DP & LP) SC]. split; [|split; [|split; [exact (conj G (conj DP LP))|]]].
  { intros k I. assert (F := lrprop_frame RA d p q H). cbn beta in F. rewrite <- (fr_pn _ _ _ _ _ k F) by (cbn in I; repeat (destruct I as [<-|I]; [reflexivity|]); destruct I).
    apply V. cbn in I |- *. repeat (destruct I as [<-|I]; [inks|]). destruct I. }
  { intros k [<-|I]; [rewrite (vals_some _ _ _ DX_); exact DX_ | apply V; exact I]. }
  assert (VS : pn q DLSA = Some (vals q DLSA)) by (apply V; inks).
  destruct (lrprop_stages RA d p q H) as (th & m' & p1 & p2 & p3 & p4 & a & _ & M' & S & D & L & C & AR & EQ). assert (m' = m) by congruence. subst m'.
  destruct S as [[S _]|[_ S]]; [contradiction|]. apply lr_setup_flags in S as [W1 W2]. apply pb_getb in W1, W2.
  assert (FD := D). apply lr_dist_frame in FD. assert (FL := L). apply lr_los_frame in FL. assert (FC := C). apply lr_scat_frame in FC.
  assert (W1' : pb p2 WSCAT = Some false) by (rewrite (fr_pb _ _ _ _ _ _ FD) by reflexivity; exact W1). assert (W2' : pb p2 WLOS = Some false) by (rewrite (fr_pb _ _ _ _ _ _ FD) by reflexivity; exact W2).
  assert (X4 : pn p4 DIST = Some x) by (subst q; exact DX_). assert (X3 : pn p3 DIST = Some x) by (rewrite (fr_pn _ _ _ _ _ _ FC) in X4 by reflexivity; exact X4). assert (X2 : pn p2 DIST = Some x) by (rewrite (fr_pn _ _ _ _ _ _ FL) in X3 by reflexivity; exact X3).
  assert (Y4 : pn p4 DLSA = Some (vals q DLSA)) by (rewrite <- VS; subst q; reflexivity). assert (Y3 : pn p3 DLSA = Some (vals q DLSA)) by (rewrite (fr_pn _ _ _ _ _ _ FC) in Y4 by reflexivity; exact Y4). assert (Y2 : pn p2 DLSA = Some (vals q DLSA)) by (rewrite (fr_pn _ _ _ _ _ _ FL) in Y3 by reflexivity; exact Y3).
  assert (AQ : pn q AREF = Some (Rmax 0 a)) by (subst q; cbn [pn setn]; rewrite nkey_eqb_refl, pymax_R, Rmax_comm; reflexivity).
  rewrite AQ. unfold regime_params, attenuation_at. destruct (Rlt_dec x (vals q DLSA)) as [LT|GE].
  - unfold lr_los in L. rewrite (proj2 (pn_getn RA p2 DIST _) X2), (proj2 (pn_getn RA p2 DLSA _) Y2) in L. cbn [bind n_ltb RA] in L. rewrite (proj2 (r_ltb_true _ _) LT) in L.
    rewrite (proj2 (pb_getb RA p2 WLOS _) W2') in L. cbn [bind] in L. apply bind_inv in L as [[[k1 k2] ael] [Ec L]].
    change (@n_Z RA 0) with 0 in L. rewrite (proj2 (r_ltb_true 0 x) XP) in L. apply bind_inv in L as [l [El L]]. apply r_log_inv in El as [_ ->]. apply ok_inj in L.
    assert (C3 : lr_scat RA p3 = Ok p3) by (apply (lr_scat_within RA _ x (vals q DLSA)); [apply pn_getn; exact X3 | apply pn_getn; exact Y3 | |]; cbn [RA n_leb n_Z]; apply r_leb_false; lra).
    assert (p4 = p3) by (change (num RA) with R in *; congruence). subst p4.
    assert (WQ : pb q WLOS = Some true) by (subst q p3; reflexivity).
    destruct (lr_calls_los_of d [] p q m M N LC WQ) as (k1' & k2' & ael' & E & E1 & E2 & E3). destruct (coeffs_value q k1' k2' ael' E E1 E2 E3) as [LQ _].
    split; [split; [intros _; exact LQ | lra]|]. f_equal. f_equal.
    rewrite (vals_some q AEL ael), (vals_some q AK1 k1), (vals_some q AK2 k2) by (subst q p3; reflexivity). subst p3. apply pn_getn in AR. cbn in AR. injection AR as <-. reflexivity.
  - assert (L2 : lr_los RA p2 = Ok p2) by (apply (lr_los_beyond RA p2 x (vals q DLSA)); [apply pn_getn; exact X2 | apply pn_getn; exact Y2 | apply r_ltb_false; lra]).
    assert (p3 = p2) by (change (num RA) with R in *; congruence). subst p3. clear L L2 FL.
    unfold lr_scat in C. rewrite (proj2 (pn_getn RA p2 DIST _) X2), (proj2 (pn_getn RA p2 DLSA _) Y2) in C. cbn [bind RA n_leb] in C. rewrite (proj2 (r_leb_true (vals q DLSA) x)) in C by lra. rewrite orb_true_r in C.
    rewrite (proj2 (pb_getb RA p2 WSCAT _) W1') in C. cbn [bind] in C. apply bind_inv in C as [s [Es C]]. apply bind_inv in C as [dx [Ed C]].
    assert (WS_ : pb s WSCAT = Some true) by (apply lr_scat_setup_inv in Es as (? & ? & ? & _ & _ & _ & W & _); exact W).
    assert (FA : same_except [AREF] [] [] s q).
    { subst q. apply fr_setn; [reflexivity|]. destruct (_ <? _)%num; apply bind_inv in C as [? [_ C]]; apply bind_inv in C as [? [_ C]]; apply ok_inj in C; subst p4; (apply fr_setn; [reflexivity | apply fr_refl]). }
    assert (WQ : pb q WSCAT = Some true) by (rewrite (fr_pb _ _ _ _ _ _ FA) by reflexivity; exact WS_).
    destruct SC as [[W _]|(_ & SP & VV)]; [congruence|]. split; [split; [lra | intros _; exact SP]|]. f_equal. f_equal.
    apply pn_getn in Ed. rewrite (vals_some q DX dx) by (rewrite (fr_pn _ _ _ _ _ _ FA) by reflexivity; exact Ed).
    cbn [RA n_ltb] in C. destruct (r_ltb dx x) eqn:B; rbool; destruct (Rle_dec x dx); try lra;
      apply bind_inv in C as [u [U C]]; apply bind_inv in C as [w [W C]]; apply ok_inj in C; subst p4; apply pn_getn in U, W, AR; cbn in AR; injection AR as <-; cbn [RA n_add n_mul].
    + rewrite (vals_some q AES u), (vals_some q EMS w) by (rewrite (fr_pn _ _ _ _ _ _ FA) by reflexivity; assumption). reflexivity.
    + rewrite (vals_some q AED u), (vals_some q EMD w) by (rewrite (fr_pn _ _ _ _ _ _ FA) by reflexivity; assumption). reflexivity.
Qed.
