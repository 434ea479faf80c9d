(** After any sequence of lrprop calls the stored parameters are those of the reference formulas. *)
From Verif Require Import Frame SpecLr PfFrame PfLrGen PfArea PfRegime PfAtten PfAvarReal PfStats PfSetup SpecScat PfScat Arith.
Open Scope R_scope.

(** ** Set-up *)
Definition setup_ok (b : bool) (p : prop RA) : Prop :=
  values p setup_keys (vals p) /\ geometry_params (vals p) /\ diffraction_params (vals p) b /\ line_params (vals p).
Lemma geometry_ext v w : (forall k, In k setup_keys -> v k = w k) -> geometry_params v -> geometry_params w.
Proof.
  intros E. unfold geometry_params.
  rewrite !(E DLS0), !(E DLS1), !(E DLSA), !(E DLA), !(E THA), !(E DMIN), !(E HE0), !(E HE1), !(E GME), !(E DL0), !(E DL1), !(E THE0), !(E THE1) by inks. auto.
Qed.
Lemma line_params_ext v w : (forall k, In k setup_keys -> v k = w k) -> line_params v -> line_params w.
Proof.
  intros E. unfold line_params. assert (E3 : diff_d3 v = diff_d3 w) by (unfold diff_d3; rewrite !(E DLSA), !(E DLA), !(E XAE) by inks; reflexivity).
  assert (E4 : diff_d4 v = diff_d4 w) by (unfold diff_d4; rewrite E3, (E XAE) by inks; reflexivity).
  assert (ED : forall d, diffraction v d = diffraction w d).
  { intro d. apply diffraction_ext. intros k I. apply E. cbn in I |- *. repeat (destruct I as [<-|I]; [inks|]). destruct I. }
  rewrite !E3, !E4, !ED, !(E XAE), !(E WN), !(E GME), !(E AED), !(E EMD), !(E WIS), !(E DH), !(E DLSA) by inks. auto.
Qed.
Lemma frame_vals nk zk bk (p q : prop RA) ks : same_except nk zk bk p q -> forallb (fun k => negb (memn k nk)) ks = true ->
  forall k, In k ks -> pn q k = pn p k /\ vals p k = vals q k.
Proof.
  intros F N k I. rewrite forallb_forall in N. specialize (N k I). apply negb_true_iff in N.
  assert (E := fr_pn _ _ _ _ _ k F N). split; [exact E|]. unfold vals. rewrite E. reflexivity.
Qed.
Lemma values_frame nk zk bk (p q : prop RA) ks : same_except nk zk bk p q -> forallb (fun k => negb (memn k nk)) ks = true ->
  values p ks (vals p) -> values q ks (vals q).
Proof. intros F N V k I. destruct (frame_vals _ _ _ _ _ _ F N k I) as [E1 E2]. rewrite E1, <- E2. apply V. exact I. Qed.
Lemma setup_ok_frame b nk zk bk (p q : prop RA) : same_except nk zk bk p q -> forallb (fun k => negb (memn k nk)) setup_keys = true ->
  setup_ok b p -> setup_ok b q.
Proof.
  intros F N (V & G & D & L). assert (E := frame_vals _ _ _ _ _ _ F N).
  assert (E2 : forall k, In k setup_keys -> vals p k = vals q k) by (intros k I; apply E; exact I).
  split; [exact (values_frame _ _ _ _ _ _ F N V)|]. split; [exact (geometry_ext _ _ E2 G)|]. split; [|exact (line_params_ext _ _ E2 L)].
  eapply diff_params_ext; [|exact D]. intros k I. apply E2. cbn in I |- *. repeat (destruct I as [<-|I]; [inks|]). destruct I.
Qed.

(** ** Scatter *)
Definition scat_all : list nkey := scat_ins ++ [AED; EMD; EMS; AES; DX].
Definition scat_of (p : prop RA) : Prop :=
  (pb p WSCAT = Some false /\ pn p ASCAT1 = Some 0) \/ (pb p WSCAT = Some true /\ scatter_params (vals p) /\ values p scat_all (vals p)).
Lemma scatter_params_ext v w : (forall k, In k ([DLSA; XAE] ++ scat_all) -> v k = w k) -> scatter_params v -> scatter_params w.
Proof.
  intro E. assert (E' : forall k, In k scat_ins -> v k = w k) by (intros k I; apply E; cbn in I |- *; repeat (destruct I as [<-|I]; [inks|]); destruct I).
  assert (E5 : scat_d5 v = scat_d5 w) by (unfold scat_d5; rewrite (E DLA) by inks; reflexivity).
  assert (E6 : scat_d6 v = scat_d6 w) by (unfold scat_d6; rewrite (E DLA) by inks; reflexivity).
  assert (EK : kept_gain v = kept_gain w) by (unfold kept_gain; rewrite !E6, !(norm_ext _ _ E'), !(gain_ext _ _ E'), !(E HE0), !(E HE1) by inks; reflexivity).
  assert (EN : near_gain v = near_gain w) by (unfold near_gain; rewrite !E5, !EK, !(gain_ext _ _ E'); reflexivity).
  unfold scatter_params. rewrite !E5, !E6, !EN, !(gain_ext _ _ E'), !(scatter_ext _ _ E'), !(E DLSA), !(E XAE), !(E DLA), !(E WN), !(E AED), !(E EMD), !(E EMS), !(E AES), !(E DX) by inks.
  auto.
Qed.
Lemma scat_of_frame nk zk bk p q : same_except nk zk bk p q -> memb WSCAT bk = false ->
  forallb (fun k => negb (memn k nk)) ([ASCAT1; DLSA; XAE] ++ scat_all) = true -> scat_of p -> scat_of q.
Proof.
  intros F B N. assert (E := frame_vals _ _ _ _ _ _ F N). intros [[W A]|(W & S & V)].
  - left. rewrite (fr_pb _ _ _ _ _ _ F B). split; [exact W|]. destruct (E ASCAT1 ltac:(inks)) as [-> _]. exact A.
  - right. rewrite (fr_pb _ _ _ _ _ _ F B). split; [exact W|]. split.
    + eapply scatter_params_ext; [|exact S]. intros k I. apply E. right. exact I.
    + intros k I. destruct (E k) as [E1 E2]; [apply in_or_app; right; exact I|]. rewrite E1, <- E2. apply V. exact I.
Qed.
Lemma lr_scat_of p q : scat_of p -> lr_scat RA p = Ok q -> scat_of q.
Proof.
  intros J H. unfold lr_scat in H. apply bind_inv in H as [dist [Ed H]]. apply bind_inv in H as [dlsa [Es H]].
  destruct (_ || _)%bool; [|apply ok_inj in H; subst; exact J].
  apply bind_inv in H as [w [Ew H]]. apply bind_inv in H as [q1 [E1 H]]. apply pb_getb in Ew.
  assert (J1 : scat_of q1).
  { destruct w; [apply ok_inj in E1; subst; exact J|]. destruct J as [[_ A]|[W _]]; [|congruence].
    right. split; [|exact (scat_setup_value p q1 A E1)].
    unfold lr_scat_setup in E1. repeat (apply bind_inv in E1; destruct E1 as [? [_ E1]]). 
    match goal with H : context [let '(_, _) := ?x in _] |- _ => destruct x end.
    repeat (apply bind_inv in E1; destruct E1 as [? [_ E1]]). apply ok_inj in E1. subst q1. reflexivity. }
  apply bind_inv in H as [dx [_ H]].
  destruct (n_ltb dx dist); apply bind_inv in H as [? [_ H]]; apply bind_inv in H as [? [_ H]]; apply ok_inj in H; subst q;
    (apply (scat_of_frame [AREF] [] [] q1); [apply fr_setn; [reflexivity | apply fr_refl] | reflexivity | reflexivity | exact J1]).
Qed.

(** ** All calls *)
Definition ref_ok (b : bool) (p : prop RA) : Prop := setup_ok b p /\ scat_of p.
Lemma setup_ref th p p1 m : (#1 /? #3)%num = Ok th -> pz p MDP = Some m -> lr_setup RA th p = Ok p1 -> ref_ok (m <? 0)%Z p1.
Proof.
  intros T M S. cbn [n_div RA n_Z] in T. apply r_div_inv in T as [_ T]. change (IZR 1) with 1 in T. change (IZR 3) with 3 in T. subst th.
  destruct (setup_value p p1 m M S) as (G & DP & LP & V & _). split; [exact (conj V (conj G (conj DP LP)))|]. left.
  destruct (lr_setup_flags RA _ _ _ S) as [W _]. apply pb_getb in W. split; [exact W|].
  unfold lr_setup in S. apply bind_inv in S as [q1 [_ S]]. apply bind_inv in S as [q2 [_ S]]. unfold lr_diff in S.
  repeat (apply bind_inv in S; destruct S as [? [_ S]]; try (match goal with x : (_ * _)%type |- _ => destruct x end)). apply ok_inj in S. subst p1. reflexivity.
Qed.
Lemma lrprop_ref b d p p' : (exists m, pz p MDP = Some m /\ ((m <> 0 /\ (m <? 0) = b) \/ (m = 0 /\ ref_ok b p)))%Z -> lrprop RA d p = Ok p' ->
  ref_ok b p' /\ exists m, pz p' MDP = Some m /\ (m = 0 \/ (m <? 0)%Z = b)%Z.
Proof.
  intros (m & M & J) H. destruct (lrprop_stages RA d p p' H) as (th & m' & p1 & p2 & p3 & p4 & a & T & M' & S & D & L & C & _ & ->).
  rewrite M in M'. injection M' as <-.
  assert (J1 : ref_ok b p1).
  { destruct S as [[-> ->]|[N S]].
    - destruct J as [[N _]|[_ J]]; [congruence | exact J].
    - destruct J as [[_ <-]|[N' _]]; [|congruence]. exact (setup_ref th p p1 m T M S). }
  assert (M1 : pz p1 MDP = Some m) by (destruct S as [[_ ->]|[_ S]]; [exact M | rewrite <- M; eapply lr_setup_mdp; exact S]).
  assert (MD : pz p2 MDP = Some (if (0 <=? m)%Z then 0%Z else m)).
  { destruct (0 <=? m)%Z eqn:Z; [eapply lr_dist_area | eapply lr_dist_p2p]; eauto; lia. }
  apply lr_dist_frame in D. apply lr_los_frame in L. assert (FC := C). apply lr_scat_frame in FC.
  destruct J1 as [J1 J1'].
  assert (J2 : setup_ok b p2) by (eapply setup_ok_frame; [exact D | reflexivity | exact J1]).
  assert (J2' : scat_of p2) by (eapply scat_of_frame; [exact D | reflexivity | reflexivity | exact J1']).
  assert (J3 : setup_ok b p3) by (eapply setup_ok_frame; [exact L | reflexivity | exact J2]).
  assert (J3' : scat_of p3) by (eapply scat_of_frame; [exact L | reflexivity | reflexivity | exact J2']).
  assert (J4' := lr_scat_of p3 p4 J3' C).
  assert (J4 : setup_ok b p4) by (eapply setup_ok_frame; [exact FC | reflexivity | exact J3]).
  set (v := pymax a _). assert (F : same_except [AREF] [] [] p4 (setn p4 AREF v)) by (apply fr_setn; [reflexivity | apply fr_refl]).
  split; [split; [eapply setup_ok_frame | eapply scat_of_frame]; try exact F; try reflexivity; assumption|].
  exists (if (0 <=? m)%Z then 0%Z else m). split.
  - cbn. rewrite (fr_pz _ _ _ _ _ MDP FC eq_refl), (fr_pz _ _ _ _ _ MDP L eq_refl). exact MD.
  - destruct (0 <=? m)%Z eqn:Z; [left; reflexivity|]. destruct J as [[_ J]|[J _]]; [right; exact J | lia].
Qed.
Lemma lr_calls_ref d ds p p' m : pz p MDP = Some m -> m <> 0%Z -> lr_calls RA (d :: ds) p = Ok p' -> ref_ok (m <? 0)%Z p'.
Proof.
  intros M N H. cbn [lr_calls] in H. apply bind_inv in H as [q [E H]].
  destruct (lrprop_ref (m <? 0)%Z d p q) as [J (m1 & M1 & O)]; [exists m; auto | exact E|].
  clear E M. revert q m1 J M1 O H. induction ds as [|e ds IH]; intros q m1 J M1 O H; cbn [lr_calls] in H; [apply ok_inj in H; subst; exact J|].
  apply bind_inv in H as [r [E H]].
  destruct (lrprop_ref (m <? 0)%Z e q r) as [J' (m2 & M2 & O')]; [|exact E|apply (IH r m2); assumption].
  exists m1. split; [exact M1|]. destruct (Z.eq_dec m1 0) as [Z|Z]; [right; auto|]. left. split; [exact Z|]. destruct O as [O|O]; [contradiction | exact O].
Qed.

(** ** Statements *)
Lemma setup_reference (d : R) ds (p p' : prop RA) m : pz p MDP = Some m -> m <> 0%Z -> lr_calls RA (d :: ds) p = Ok p' ->
  exists v, values p setup_inputs v /\ values p' setup_keys v /\ geometry_params v /\ diffraction_params v (m <? 0)%Z /\ line_params v.
Proof.
  intros M N H. destruct (lr_calls_ref d ds p p' m M N H) as [(V & G & D & L) _]. exists (vals p'). split; [|auto].
  assert (X : forall ds p p', lr_calls RA ds p = Ok p' -> forall k, In k setup_inputs -> pn p' k = pn p k).
  { clear. induction ds as [|d ds IH]; intros p p' H k I; cbn [lr_calls] in H; [apply ok_inj in H; subst; reflexivity|].
    apply bind_inv in H as [q [E H]]. rewrite (IH q p' H k I). apply lrprop_frame in E. apply (fr_pn _ _ _ _ _ k E).
    cbn in I. repeat (destruct I as [<-|I]; [reflexivity|]). destruct I. }
  intros k I. rewrite <- (X _ _ _ H k I). apply V. cbn in I |- *. repeat (destruct I as [<-|I]; [inks|]). destruct I.
Qed.
Lemma clutter_bounds v b : 0 <= v HG0 -> 0 <= v HG1 -> 0 <= v WN -> 0 <= v DH -> 0 <= v DLSA -> diffraction_params v b -> 0 <= v AFO <= 15.
Proof.
  intros H0 H1 W D L (_ & _ & E & _). rewrite E. split; [|apply Rmin_l]. apply Rmin_glb; [lra|]. apply Rmult_le_pos; [lra|]. rewrite <- ln_1.
  assert (0 <= roughness v (v DLSA)).
  { unfold roughness, irregularity_at. assert (exp (- v DLSA / 50000) <= 1) by (rewrite <- exp_0; destruct (Req_dec (v DLSA) 0) as [Z|Z]; [right; f_equal; rewrite Z; lra | left; apply exp_increasing; lra]).
    apply Rmult_le_pos; [apply Rmult_le_pos; [lra|]; apply Rmult_le_pos; lra | left; apply exp_pos]. }
  assert (0 <= 0.000477 * v HG0 * v HG1 * v WN * roughness v (v DLSA)) by (do 4 (apply Rmult_le_pos; [|assumption]); lra).
  destruct (Rle_lt_or_eq_dec _ _ H2) as [P|P]; [left; apply ln_increasing; lra | rewrite <- P, Rplus_0_r; lra].
Qed.
Lemma scat_reference (d : R) ds (p p' : prop RA) m : pz p MDP = Some m -> m <> 0%Z -> lr_calls RA (d :: ds) p = Ok p' -> pb p' WSCAT = Some true ->
  exists v, values p' scatter_keys v /\ scatter_params v.
Proof.
  intros M N H W. destruct (lr_calls_ref d ds p p' m M N H) as [(V & _) [[W' _]|(_ & S & V')]]; [congruence|]. exists (vals p'). split; [|exact S].
  intros k I. cbn in I. repeat (destruct I as [<-|I]; [first [solve [apply V; inks] | solve [apply V'; inks]]|]). destruct I.
Qed.
