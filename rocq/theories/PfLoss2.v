(** The losses in the tables of p2p.py and pimter.py. *)
From Coq Require Import Lra Lia.
From Verif Require Import RInst Frame RTac SpecLr SpecLoss PfFrame PfLrGen PfPrepGen PfArea PfRegime PfLos PfAtten PfAvarReal PfAvarApi PfStats PfSetup PfScat PfRef PfLosRef PfRealRun PfTerminal PfTotal3 PfP2P PfAreaRun2 PfReverse4 PfHzns PfPathRun2 PfPathRun3 PfPimter PfPimterRun PfPrepReal PfLoss Scripts Prep Stats LrProp Dict Arith.
Open Scope R_scope.

Lemma los_params_ext v w : (forall k, In k (alos_keys ++ [DLA; DLSA; AK1; AK2; AEL]) -> v k = w k) -> los_params v -> los_params w.
Proof.
  intro E. assert (L : forall d, los_at v d = los_at w d) by (intro d; apply los_at_ext; intros k I; apply E; apply in_or_app; left; exact I).
  assert (E0 : fit_d0 v = fit_d0 w) by (unfold fit_d0; rewrite (E WN), (E HE0), (E HE1), (E DLA), (E AED) by inks; reflexivity).
  assert (E1 : fit_d1 v = fit_d1 w) by (unfold fit_d1; rewrite (E WN), (E HE0), (E HE1), (E DLA), (E AED), (E EMD) by inks; reflexivity).
  assert (E2 : fit_a2 v = fit_a2 w) by (unfold fit_a2; rewrite (E AED), (E EMD), (E DLSA) by inks; reflexivity).
  assert (K2 : fit_ak2 v = fit_ak2 w) by (unfold fit_ak2; cbv zeta; rewrite !E0, !E1, !E2, !L, (E DLSA) by inks; reflexivity).
  assert (K1 : fit_ak1 v = fit_ak1 w) by (unfold fit_ak1; cbv zeta; rewrite !E0, !E2, !K2, !L, (E DLSA) by inks; reflexivity).
  unfold los_params, fit_used. rewrite !E0, !E1, !E2, !K2, !K1, !L, (E DLSA), (E AED), (E EMD), (E AK1), (E AK2), (E AEL) by inks. auto.
Qed.
Lemma regime_ext v w x : (forall k, ~ In k cache_n -> v k = w k) -> regime_params v x -> regime_params w x.
Proof.
  intros E (A & B). assert (X : v DLSA = w DLSA) by (apply E; cbn; intuition discriminate). split; intro L; rewrite <- X in L.
  - apply (los_params_ext v); [|exact (A L)]. intros k I. apply E. intro J. cbn in I. repeat (destruct I as [<-|I]; [cbn in J; intuition discriminate|]). destruct I.
  - apply (scatter_params_ext v); [|exact (B L)]. intros k I. apply E. intro J. cbn in I. repeat (destruct I as [<-|I]; [cbn in J; intuition discriminate|]). destruct I.
Qed.
Lemma reference_ext v w b : (forall k, ~ In k cache_n -> v k = w k) -> reference_params v b -> reference_params w b.
Proof.
  intros E (A & B & C). assert (S : forall k, In k setup_keys -> v k = w k).
  { intros k I. apply E. intro J. cbn in I. repeat (destruct I as [<-|I]; [cbn in J; intuition discriminate|]). destruct I. }
  split; [exact (geometry_ext v w S A)|]. split; [|exact (line_params_ext v w S C)].
  apply (diff_params_ext v); [|exact B]. intros k I. apply S. cbn in I. repeat (destruct I as [<-|I]; [inks|]). destruct I.
Qed.
Lemma attenuation_ext v w x : (forall k, ~ In k cache_n -> v k = w k) -> attenuation_at v x = attenuation_at w x.
Proof.
  intro E. assert (S : forall k, In k [DLSA; AEL; AK1; AK2; DX; AED; EMD; AES; EMS] -> v k = w k).
  { intros k I. apply E. intro J. cbn in I. repeat (destruct I as [<-|I]; [cbn in J; intuition discriminate|]). destruct I. }
  unfold attenuation_at. rewrite !S by inks. reflexivity.
Qed.
Lemma Forall2_impl_gen {A B} (P Q : A -> B -> Prop) : (forall a b, P a b -> Q a b) -> forall l m, Forall2 P l m -> Forall2 Q l m.
Proof. intros H l m F. induction F; constructor; auto. Qed.
(** One path. *)
Lemma step_loss (f : profile RA) (w : nkey -> R) (q0 q : prop RA) : well_formed f -> 0 < w HG0 -> 0 < w HG1 -> 0 < w GME -> step_ready q0 f w -> qlrpfl RA q0 = Ok q ->
  let x := path_length f in values q [WN; GME; ENS; HG0; HG1; ZGR; ZGI] w /\ pn q DIST = Some x /\ pz q LVAR = Some 5%Z /\ pz q MDVAR = Some 11%Z /\ pz q KLIM = pz q0 KLIM /\
  forall v, (forall k, ~ In k cache_n -> v k = vals q k) ->
    (forall q', path_entries q' f v -> exists r, qlrpfl_geom RA q' = Ok r /\ values r [DH; HE0; HE1; DL0; DL1; THE0; THE1] v) /\
    reference_params v true /\ v DIST = x /\ regime_params v x /\ v AREF = attenuation_at v x.
Proof.
  intros W P0 P1 G (Rf & Rv & RL & RK & RW & RX & RM) H x. set (h0 := w HG0) in *. set (h1 := w HG1) in *.
  destruct (terrain_exist f h0 h1 (w GME) W P0 P1 G) as (u & GEO & _). fold x in GEO.
  destruct (GEO w q0 eq_refl eq_refl eq_refl) as (q1 & E1 & V1 & D1).
  { split; [exact Rf|]. split; [exact W|]. split; [intros k I; apply Rv; cbn in I |- *; tauto|]. auto. }
  assert (F1 := qlrpfl_geom_frame RA q0 q1 E1). cbn beta in F1. assert (FQ := qlrpfl_frame RA q0 q H). cbn beta in FQ.
  destruct (qlrpfl_control RA _ _ H) as (lv & mx & kx & L & M & X & _ & L' & M' & K'). assert (lv = 5%Z) by congruence. assert (mx = 11%Z) by congruence. assert (kx = 0%Z) by congruence. subst lv mx kx. cbn in L', M', K'.
  unfold qlrpfl in H. rewrite E1 in H. cbn [bind] in H. apply bind_inv in H as [q2 [E2 H]].
  destruct (prep_control_spec RA (-1) q1 q2 E2) as (lv & mx & kx & _ & _ & _ & M2 & _ & _ & _ & F2).
  assert (F3 := lrprop_frame RA _ q2 q H). cbn beta in F3.
  assert (VQ : values q [WN; GME; ENS; HG0; HG1; ZGR; ZGI] w).
  { intros k I. rewrite (fr_pn _ _ _ _ _ k FQ) by (cbn in I; repeat (destruct I as [<-|I]; [reflexivity|]); destruct I). apply Rv. exact I. }
  assert (D2 : pn q2 DIST = Some x) by (rewrite (fr_pn _ _ _ _ _ _ F2) by reflexivity; exact D1).
  assert (XD : pn q DIST = Some x) by (destruct (lrprop_p2p RA _ q2 q (-1) H M2 ltac:(lia)) as [_ ->]; exact D2).
  assert (XP : 0 < x) by (apply len_pos; exact W).
  split; [exact VQ|]. split; [exact XD|]. split; [exact L'|]. split; [exact M'|]. split; [exact (proj1 K')|].
  intros v VV. destruct (lrprop_complete _ x q2 q (-1) M2 ltac:(lia) H XD XP) as (_ & VS & RP & RG & AR).
  assert (VV' : forall k, ~ In k cache_n -> vals q k = v k) by (intros; symmetry; auto).
  split; [|split; [exact (reference_ext _ _ _ VV' RP)|split; [|split; [exact (regime_ext _ _ _ VV' RG)|]]]].
  - intros q' PE. assert (A : forall k, In k [HG0; HG1; GME] -> v k = w k).
    { intros k I. rewrite VV by (intro J; cbn in I; repeat (destruct I as [<-|I]; [cbn in J; intuition discriminate|]); destruct I). apply vals_some. apply VQ. cbn in I |- *. tauto. }
    destruct (GEO v q' (A HG0 ltac:(inks)) (A HG1 ltac:(inks)) (A GME ltac:(inks)) PE) as (r & Er & Vr & _). exists r. split; [exact Er|].
    intros k I. rewrite (Vr k I). f_equal. rewrite VV by (intro J; cbn in I; repeat (destruct I as [<-|I]; [cbn in J; intuition discriminate|]); destruct I). symmetry. apply vals_some.
    assert (K : memn k [DH; HE0; HE1; DL0; DL1; THE0; THE1] = true) by (cbn in I; repeat (destruct I as [<-|I]; [reflexivity|]); destruct I).
    rewrite (fr_pn _ _ _ _ _ k F3), (fr_pn _ _ _ _ _ k F2) by (cbn in I; repeat (destruct I as [<-|I]; [reflexivity|]); destruct I). apply V1. exact I.
  - rewrite VV by (cbn; intuition discriminate). apply vals_some. exact XD.
  - rewrite VV by (cbn; intuition discriminate). rewrite (vals_some _ _ _ AR). apply attenuation_ext. exact VV'.
Qed.
(** The rows computed from one dictionary. *)
Lemma p2p_loss (p : prop RA) z d f h0 h1 ipol out : path_request p z d f h0 h1 ipol -> itmlogic_p2p RA z p = Ok out -> exists v,
  path_values z d f h0 h1 ipol v /\ prediction v (1000 * d) 5 11 /\ out_fs RA out = free_space v (1000 * d) /\
  Forall2 (fun (rc : Z * Z) row => exists t s : R, deviate RA (fst rc) t /\ deviate RA (snd rc) s /\
    row = (d, IZR (fst rc), IZR (snd rc), free_space v (1000 * d) + attenuation_for v 11 t 0 s)) p2p_levels (out_rows RA out).
Proof.
  intros A H. assert (A' := A). destruct A' as (_ & Hd & _ & _ & _ & _ & Pd & P0 & P1 & _).
  destruct (prepare_runs p z d f h0 h1 ipol A) as (q0 & w & EP & (Rf & _ & Rv & RL & RK & RW & RX & RM) & W & PL & QL & WP & WG & W0 & W1 & _).
  destruct (p2p_out_rows RA _ _ _ H) as (q & d' & EQ & Hd' & (wn & dist & l & Ewn & Edist & El & Efs) & ROWS).
  assert (d' = d) by congruence. subst d'. rewrite EP in EQ. assert (G := curvature_pos). rewrite <- WG in G.
  destruct (step_loss (script_path d z) w q0 q W) as (VQ & XD & LV & MD & KL & STEP); [rewrite W0; exact P0 | rewrite W1; exact P1 | exact G | repeat split; eauto | exact EQ|].
  rewrite PL in XD, STEP. rewrite RK in KL.
  assert (R0 : exists t s a q', avar RA t 0 s q = Ok (a, q')).
  { destruct p2p_levels as [|rc ?] eqn:EL; [discriminate EL|]. inversion ROWS as [|? ? ? ? (t & s & a & q' & _ & _ & E & _)]; subst. exists t, s, a, q'. exact E. }
  destruct R0 as (t0 & s0 & a0 & q' & E0). destruct (avar_complete q 5 5 11 _ _ _ _ _ LV ltac:(lia) KL MD E0) as (AG & FS & ALL).
  exists (vals q'). destruct (STEP (vals q')) as (GEO & RP & DD & RG & AR); [intros k N; unfold vals; rewrite AG by exact N; reflexivity|].
  assert (VW : forall k, In k [WN; GME; ENS; HG0; HG1; ZGR; ZGI] -> vals q' k = w k).
  { intros k I. apply vals_some. rewrite AG by (intro J; cbn in I; repeat (destruct I as [<-|I]; [cbn in J; intuition discriminate|]); destruct I). apply VQ. exact I. }
  assert (FE : out_fs RA out = free_space (vals q') (1000 * d)).
  { rewrite Efs. unfold free_space. rewrite (VW WN) by inks. rewrite VQ in Ewn by inks. injection Ewn as <-. assert (dist = (1000 * d)%R) by congruence. subst dist. 
    cbn [np_log RA n_mul n_Z] in El. apply r_log_inv in El as (_ & ->). cbn [n_lit n_mul RA]. lra. }
  split; [|split; [|split; [exact FE|]]].
  - split; [rewrite !VW by inks; exact QL|]. split; [rewrite VW by inks; exact W0|]. split; [rewrite VW by inks; exact W1|]. split; [exact GEO | exact RP].
  - split; [exact DD|]. split; [exact RG|]. split; [exact AR | exact FS].
  - revert ROWS. apply Forall2_impl_gen. intros rc row (t & s & a & q2 & Ht & Hs & Ea & ->). exists t, s. split; [exact Ht|]. split; [exact Hs|].
    rewrite (ALL _ _ _ _ _ Ea), FE. reflexivity.
Qed.
(** The loop of pimter.py. *)
Lemma loop_loss (f : profile RA) (w : nkey -> R) (fm zr zc : R) : well_formed f -> 0 < w HG0 -> 0 < w GME -> let x := path_length f in
  forall ks p rows, (forall k, In k ks -> (0 < k)%nat) -> loop_ready p f w -> pz p KLIM = Some 5%Z ->
  pimter_loop RA fm zr zc (map (fun k => IZR (Z.of_nat k)) ks) p = Ok rows ->
  Forall2 (fun k row => exists v, (forall j, In j [WN; GME; ENS; HG0; ZGR; ZGI] -> v j = w j) /\ v HG1 = INR k /\
    (forall q', path_entries q' f v -> exists r, qlrpfl_geom RA q' = Ok r /\ values r [DH; HE0; HE1; DL0; DL1; THE0; THE1] v) /\ reference_params v true /\
    prediction v x 5 11 /\ row = (fm, INR k, 50, free_space v x + attenuation_for v 11 zr 0 zc)) ks rows.
Proof.
  intros W P0 G x. induction ks as [|h ks IH]; intros p rows HP L KP H; cbn [map pimter_loop] in H; [injection H as <-; constructor|].
  cbv zeta in H. set (q0 := setz (setz (setz (setz (setn p HG1 (IZR (Z.of_nat h))) LVAR 5) KWX 0) KLIMX 0) MDVARX 11) in *.
  assert (Q : step_ready q0 f (at_height w (IZR (Z.of_nat h)))).
  { destruct L as (Lf & Lv & kl & Lk). split; [exact Lf|]. split.
    - intros k I. cbn in I. repeat (destruct I as [<-|I]; [try (apply Lv; inks); try reflexivity|]). destruct I.
    - split; [reflexivity|]. split; [exists kl; exact Lk|]. repeat split; reflexivity. }
  apply bind_inv in H as [q [E H]]. apply bind_inv in H as [wn [Ewn H]]. apply bind_inv in H as [dist [Edist H]]. apply bind_inv in H as [l [El H]]. apply bind_inv in H as [[a q2] [Ea H]]. cbn [fst snd] in H.
  apply bind_inv in H as [rest [Er H]]. apply ok_inj in H. subst rows.
  assert (HH : 0 < IZR (Z.of_nat h)) by (apply IZR_lt; specialize (HP h (or_introl eq_refl)); lia).
  destruct (step_loss f (at_height w (IZR (Z.of_nat h))) q0 q W P0 HH G Q E) as (VQ & XD & LV & MD & KL & STEP). fold x in XD, STEP.
  change (pz q0 KLIM) with (pz p KLIM) in KL. rewrite KP in KL.
  destruct (avar_complete q 5 5 11 _ _ _ _ _ LV ltac:(lia) KL MD Ea) as (AG & FS & ALL).
  assert (VW : forall k, In k [WN; GME; ENS; HG0; HG1; ZGR; ZGI] -> pn q2 k = Some (at_height w (IZR (Z.of_nat h)) k)).
  { intros k I. rewrite AG by (intro J; cbn in I; repeat (destruct I as [<-|I]; [cbn in J; intuition discriminate|]); destruct I). apply VQ. exact I. }
  constructor.
  - exists (vals q2). destruct (STEP (vals q2)) as (GEO & RP & DD & RG & AR); [intros k N; unfold vals; rewrite AG by exact N; reflexivity|].
    split. { intros k I. cbn in I. repeat (destruct I as [<-|I]; [apply vals_some; refine (VW _ _); inks|]). destruct I. }
    split. { apply vals_some. rewrite INR_IZR_INZ. refine (VW _ _). inks. }
    split; [exact GEO|]. split; [exact RP|]. split; [split; [exact DD|]; split; [exact RG|]; split; [exact AR | exact FS]|].
    rewrite INR_IZR_INZ. f_equal. rewrite (ALL _ _ _ _ _ Ea). f_equal. unfold free_space. rewrite (vals_some _ _ _ (VW WN ltac:(inks))).
    apply pn_getn in Ewn, Edist. rewrite VQ in Ewn by inks. injection Ewn as <-. assert (dist = x) by congruence. subst dist. cbn [np_log RA n_mul n_Z] in El. apply r_log_inv in El as (_ & ->). cbn [n_lit n_mul n_add n_Z RA at_height]. lra.
  - apply (IH q2); [intros k I; apply HP; right; exact I | | | exact Er].
    + assert (F1 := qlrpfl_frame RA q0 q E). assert (F2 := avar_frame RA zr 0 zc q _ Ea). cbn beta in F1, F2. cbn [snd] in F2. destruct Q as (Qf & Qv & _). split; [|split].
      * destruct F1 as (_ & _ & _ & F1), F2 as (_ & _ & _ & F2). congruence.
      * intros k I. replace (w k) with (at_height w (IZR (Z.of_nat h)) k) by (cbn in I; repeat (destruct I as [<-|I]; [reflexivity|]); destruct I). apply VW. cbn in I |- *. tauto.
      * exists 5%Z. exact (proj1 (proj2 (avar_klim_api RA _ _ _ _ _ _ _ _ Ea LV ltac:(lia) KL))).
    + exact (proj1 (proj2 (avar_klim_api RA _ _ _ _ _ _ _ _ Ea LV ltac:(lia) KL))).
Qed.
Lemma pimter_loss (dist z : list R) rows : length z = length dist -> (2 <= length dist)%nat -> nth 0 dist 0 < nth 1 dist 0 -> run_itmlogic RA z dist = Ok rows ->
  let x := path_length (walked_path dist z) in
  Forall2 (fun k row => exists v, flight_values dist z (INR k) v /\ prediction v x 5 11 /\
    row = (2488, INR k, 50, free_space v x + attenuation_for v 11 (- 4.7533) 0 (- 4.7533))) (seq 10 121) rows.
Proof.
  intros L L2 D H x. assert (W := walked_wf dist z L L2 D). destruct (pimter_prepared dist z L2) as (p & w & EP & LR & K & Q & WN_ & G & WH & _ & _).
  unfold run_itmlogic in H. rewrite pimter_dev_value in H. cbn [bind] in H. change (num RA) with R in *. rewrite EP in H. cbn [bind fst snd] in H.
  assert (C := loop_loss (walked_path dist z) w 2488 (- (47533 / 10000)) (- (47533 / 10000)) W ltac:(rewrite WH; lra) G (seq 10 121) p rows ltac:(intros k I; apply in_seq in I; lia) LR K H).
  revert C. apply Forall2_impl_gen. intros k row (v & VW & VH & GEO & RP & PR & ->). exists v. split; [|split; [exact PR|]].
  - split; [rewrite !VW by inks; exact Q|]. split; [rewrite VW by inks; exact WH|]. split; [exact VH|]. split; [exact GEO | exact RP].
  - fold x. replace (- (47533 / 10000)) with (- 4.7533) by lra. reflexivity.
Qed.
