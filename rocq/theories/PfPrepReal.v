(** Over exact reals every set-up call recognises a regime. *)
From Verif Require Import Frame SpecPrep Scripts PfFrame PfLrGen PfArea PfPrepGen.
Open Scope R_scope.

Lemma lrprop_regime d (p p' : prop RA) m : lrprop RA d p = Ok p' -> pz p MDP = Some m -> m <> 0%Z -> regime_decided p'.
Proof.
  intros H M N.
  destruct (lrprop_stages RA d p p' H) as (th & m' & p1 & p2 & p3 & p4 & a & _ & M' & S & D & L & C & _ & ->).
  rewrite M in M'. inversion M'; subst m'. destruct S as [[S _]|[_ S]]; [contradiction|].
  apply lr_setup_flags in S as [W1 W2]. assert (FD := D). apply lr_dist_frame in FD.
  assert (W1' : getb p2 WSCAT = Ok false) by (rewrite <- W1; exact (fr_getb _ _ _ _ _ WSCAT FD eq_refl)).
  assert (W2' : getb p2 WLOS = Ok false) by (rewrite <- W2; exact (fr_getb _ _ _ _ _ WLOS FD eq_refl)).
  assert (FL := L). apply lr_los_frame in FL. assert (FC := C). apply lr_scat_frame in FC.
  unfold lr_los in L. apply bind_inv in L as [dist [Ed L]]. apply bind_inv in L as [dlsa [Es L]].
  unfold lr_scat in C. rewrite (fr_getn _ _ _ _ _ DIST FL eq_refl), (fr_getn _ _ _ _ _ DLSA FL eq_refl), Ed, Es in C.
  cbn [bind] in C. runfold.
  destruct (r_leb dist 0 || r_leb dlsa dist) eqn:B.
  - left. apply bind_inv in C as [w [Ew C]]. rewrite (fr_getb _ _ _ _ _ WSCAT FL eq_refl), W1' in Ew.
    inversion Ew; subst w. apply bind_inv in C as [q [Eq C]].
    assert (T : pb q WSCAT = Some true).
    { unfold lr_scat_setup in Eq. do 5 (apply bind_inv in Eq; destruct Eq as [? [_ Eq]]).
      apply bind_inv in Eq as [[? ?] [_ Eq]]. repeat (apply bind_inv in Eq; destruct Eq as [? [_ Eq]]). inversion Eq. reflexivity. }
    apply bind_inv in C as [dx [_ C]]. destruct (r_ltb dx dist); apply bind_inv in C as [? [_ C]];
      apply bind_inv in C as [? [_ C]]; inversion C; subst; exact T.
  - right. rbool. destruct (r_ltb dist dlsa) eqn:B2; [|rbool; lra].
    rewrite W2' in L. cbn [bind] in L. apply bind_inv in L as [[[a1 a2] ae] [_ L]].
    destruct (r_ltb 0 dist) eqn:B3; [|rbool; lra]. apply bind_inv in L as [l [_ L]]. inversion L; subst.
    inversion C; subst. split; [reflexivity|]. exists dist. split; [|exact B3]. cbn.
    exact (proj1 (pn_getn RA p2 DIST dist) Ed).
Qed.
Lemma qlrpfl_regime (p p' : prop RA) : qlrpfl RA p = Ok p' -> regime_decided p'.
Proof.
  intro H. apply qlrpfl_parts in H as (p1 & p2 & _ & E2 & E3).
  apply lrprop_regime with (d := 0) (p := p2) (m := (-1)%Z); [exact E3 | | discriminate].
  apply prep_control_spec in E2. destruct E2 as (lv & mx & kx & _ & _ & _ & M & _). exact M.
Qed.
Lemma qlrpfl_same_real (p q p' : prop RA) : 
  agree_on qlrpfl_inputs qlrpfl_controls [] p q -> ppfl p = ppfl q ->
  has KWX p -> has KWX q -> has LVAR p -> has LVAR q -> qlrpfl RA p = Ok p' ->
  exists q', qlrpfl RA q = Ok q' /\ same_results p' q'.
Proof.
  intros. apply (qlrpfl_same RA p q p'); auto.
  - apply r_eqb_true. reflexivity.
  - apply qlrpfl_regime with p. assumption.
Qed.
Lemma qlrpfl_again_real (p p' : prop RA) : has KWX p -> qlrpfl RA p = Ok p' ->
  exists p'', qlrpfl RA p' = Ok p'' /\ same_results p' p''.
Proof.
  intros. apply (qlrpfl_again RA p p'); auto.
  - apply r_eqb_true. reflexivity.
  - apply qlrpfl_regime with p. assumption.
Qed.
