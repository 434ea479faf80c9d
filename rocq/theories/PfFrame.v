(** Which entries each routine may change (any arithmetic). *)
From Verif Require Import Frame Scripts.

Section PfFrame.
Context (A : arith).
Implicit Types p q : prop A.

Definition adiff_keys : list nkey := [WD1; XD1; AFO; QK; XHT; AHT].
Lemma adiff_init_frame th p : wp (adiff_init A th p) (same_except adiff_keys [] [] p).
Proof. unfold adiff_init. repeat wstep fail. frames. Qed.
Lemma adiff_frame d p : wp (adiff A d p) (fun r => same_except adiff_keys [] [] p (snd r)).
Proof.
  unfold adiff. wstep fail. wstep fail. destruct (n_eqb d (n_Z 0)).
  - wstep fail. eapply wp_conseq; [apply adiff_init_frame|]. intros q H. wstep fail. frames.
  - repeat wstep fail. frames.
Qed.
Lemma adiff_pure d p : n_eqb d (n_Z 0) = false -> wp (adiff A d p) (fun r => snd r = p).
Proof. intros H. unfold adiff. rewrite H. repeat wstep fail. reflexivity. Qed.

Lemma ascat_frame d p : wp (ascat A d p) (same_except [ASCAT1; H0S] [] [] p).
Proof.
  unfold ascat. repeat wstep fail; subst;
    repeat match goal with |- context [if ?b then _ else _] => destruct b end; frames.
Qed.

Lemma lr_geom_frame p : wp (lr_geom A p) (same_except [DLS0; DLS1; DLSA; DLA; THA] [] [WLOS; WSCAT] p).
Proof. unfold lr_geom. repeat wstep fail. frames. Qed.
Lemma lr_checks_frame p : wp (lr_checks A p) (same_except [] [KWX] [] p).
Proof. unfold lr_checks. repeat wstep fail. frames. Qed.
Definition lr_diff_keys : list nkey := [DMIN; XAE; EMD; AED; WIS; ASCAT1] ++ adiff_keys.
Ltac adiff_step := apply wp_bind; eapply wp_conseq; [apply adiff_frame|]; intros [? ?]; cbn [fst snd]; intros ?.
Lemma lr_diff_frame th p : wp (lr_diff A th p) (same_except lr_diff_keys [] [] p).
Proof.
  unfold lr_diff.
  repeat match goal with
    | |- wp (bind (adiff _ _ _) _) _ => adiff_step
    | _ => wstep fail
    end.
  frames.
Qed.
Definition lr_setup_keys : list nkey := [DLS0; DLS1; DLSA; DLA; THA] ++ lr_diff_keys.
Lemma lr_setup_frame th p : wp (lr_setup A th p) (same_except lr_setup_keys [KWX] [WLOS; WSCAT] p).
Proof.
  unfold lr_setup. wstep fail. eapply wp_conseq; [apply lr_geom_frame|]. intros p1 H1.
  wstep fail. eapply wp_conseq; [apply lr_checks_frame|]. intros p2 H2.
  eapply wp_conseq; [apply lr_diff_frame|]. intros p3 H3. frames.
Qed.
Lemma lr_dist_frame d p : wp (lr_dist A d p) (same_except [DIST] [KWX; MDP] [] p).
Proof.
  unfold lr_dist. wstep fail. wstep fail.
  destruct (0 <=? x)%Z; repeat wstep fail; frames.
Qed.
Lemma lr_los_frame p : wp (lr_los A p) (same_except [AK1; AK2; AEL; AREF] [] [WLOS] p).
Proof. unfold lr_los. repeat wstep fail; frames. Qed.
Definition lr_scat_keys : list nkey := [AD; RR; ETQ; H0S; ASCAT1; EMS; DX; AES].
Ltac ascat_step := apply wp_bind; eapply wp_conseq; [apply ascat_frame|]; intros ? ?.
Lemma lr_scat_setup_frame p : wp (lr_scat_setup A p) (same_except lr_scat_keys [] [WSCAT] p).
Proof.
  unfold lr_scat_setup.
  repeat match goal with
    | |- wp (bind (ascat _ _ _) _) _ => ascat_step
    | |- wp (bind (if _ then let! _ := _ in Ok _ else Ok _) _) _ =>
        apply wp_bind; apply wp_any; intros [? ?]
    | _ => wstep fail
    end; frames.
Qed.
Lemma lr_scat_frame p : wp (lr_scat A p) (same_except (AREF :: lr_scat_keys) [] [WSCAT] p).
Proof.
  unfold lr_scat.
  repeat match goal with
    | |- wp (lr_scat_setup _ _) _ => eapply wp_conseq; [apply lr_scat_setup_frame|]; intros ? ?
    | _ => wstep fail
    end; frames.
Qed.
(** After the set-up. *)
Definition lr_run_keys : list nkey := [DIST; AK1; AK2; AEL; AREF] ++ lr_scat_keys.
Definition lrprop_keys : list nkey := lr_run_keys ++ lr_setup_keys.
Lemma lrprop_frame d p : wp (lrprop A d p) (same_except lrprop_keys [KWX; MDP] [WLOS; WSCAT] p).
Proof.
  unfold lrprop.
  repeat match goal with
    | |- wp (lr_setup _ _ _) _ => eapply wp_conseq; [apply lr_setup_frame|]; intros ? ?
    | |- wp (lr_dist _ _ _) _ => eapply wp_conseq; [apply lr_dist_frame|]; intros ? ?
    | |- wp (lr_los _ _) _ => eapply wp_conseq; [apply lr_los_frame|]; intros ? ?
    | |- wp (lr_scat _ _) _ => eapply wp_conseq; [apply lr_scat_frame|]; intros ? ?
    | _ => wstep fail
    end; frames.
Qed.
(** The continuing mode (mdp = 0). *)
Lemma lrprop_cont_frame d p : pz p MDP = Some 0%Z ->
  wp (lrprop A d p) (same_except lr_run_keys [KWX; MDP] [WLOS; WSCAT] p).
Proof.
  intros M. unfold lrprop, getz at 1. rewrite M. cbn [opt_res].
  repeat match goal with
    | |- wp (bind (Ok _) _) _ => cbn [bind]
    | |- context [negb (0 =? 0)%Z] => cbn [negb Z.eqb]
    | |- wp (lr_dist _ _ _) _ => eapply wp_conseq; [apply lr_dist_frame|]; intros ? ?
    | |- wp (lr_los _ _) _ => eapply wp_conseq; [apply lr_los_frame|]; intros ? ?
    | |- wp (lr_scat _ _) _ => eapply wp_conseq; [apply lr_scat_frame|]; intros ? ?
    | _ => wstep fail
    end; frames.
Qed.

(** * avar *)
Definition clim_keys : list nkey :=
  [CV1; CV2; YV1; YV2; YV3; CSM1; CSM2; YSM1; YSM2; YSM3; CSP1; CSP2; YSP1; YSP2; YSP3;
   CSD1; ZD; CFM1; CFM2; CFM3; CFP1; CFP2; CFP3].
Lemma av_klim_frame p : wp (av_klim A p) (same_except clim_keys [KLIM; KWX] [] p).
Proof.
  unfold av_klim. wstep fail. wstep fail. wstep fail.
  assert (G : forall l p0, subn (map fst l) clim_keys = true ->
     forall k, wp (foldM (fun p kt => let! v := pyget (snd kt) k in Ok (setn p (fst kt) v)) l p0)
                  (same_except (A:=A) clim_keys [KLIM; KWX] [] p0)).
  { induction l as [|[k0 t] l IH]; intros p0 S k; cbn [foldM].
    - wstep fail. frames.
    - cbn [map fst subn forallb] in S. apply andb_true_iff in S as [S1 S2].
      wstep fail. wstep fail. cbn [fst snd]. apply wp_any; intro v. wstep fail.
      eapply wp_conseq; [apply IH; assumption|]. intros q H'.
      eapply fr_trans; [|exact H']. apply fr_setn; [assumption|]. apply fr_refl. }
  destruct ((x <=? 0)%Z || (7 <? x)%Z);
    repeat match goal with
    | |- wp (foldM _ _ _) _ => eapply wp_conseq; [apply G; reflexivity|]; intros ? ?
    | _ => wstep fail
    end; frames.
Qed.
Lemma av_mode_frame p : wp (av_mode A p) (same_except [] [KDV; KWX] [WS; WL] p).
Proof. unfold av_mode. repeat wstep fail; frames. Qed.
Lemma av_freq_frame p : wp (av_freq A p) (same_except [GM; GP] [] [] p).
Proof. unfold av_freq. repeat wstep fail; frames. Qed.
Lemma av_he_frame th p : wp (av_he A th p) (same_except [DEXA] [] [] p).
Proof. unfold av_he. repeat wstep fail; frames. Qed.
Definition av_dist_keys : list nkey := [VMD; SGTM; SGTP; SGTD; TGTD; SGL; VS0].
Lemma av_dist_frame p : wp (av_dist A p) (same_except av_dist_keys [LVAR] [] p).
Proof. unfold av_dist. repeat wstep fail; frames. Qed.
Definition avar_keys : list nkey := clim_keys ++ [GM; GP; DEXA] ++ av_dist_keys.
Lemma av_refresh_frame th p : wp (av_refresh A th p) (same_except avar_keys [KLIM; KWX; KDV; LVAR] [WS; WL] p).
Proof.
  unfold av_refresh.
  repeat match goal with
    | |- wp (av_klim _ _) _ => eapply wp_conseq; [apply av_klim_frame|]; intros ? ?
    | |- wp (av_mode _ _) _ => eapply wp_conseq; [apply av_mode_frame|]; intros ? ?
    | |- wp (av_freq _ _) _ => eapply wp_conseq; [apply av_freq_frame|]; intros ? ?
    | |- wp (av_he _ _ _) _ => eapply wp_conseq; [apply av_he_frame|]; intros ? ?
    | |- wp (av_dist _ _) _ => eapply wp_conseq; [apply av_dist_frame|]; intros ? ?
    | _ => wstep fail
    end; frames.
Qed.
Lemma av_quant_frame a b c p : wp (av_quant A a b c p) (fun r => same_except [] [KWX] [] p (snd r)).
Proof. unfold av_quant. repeat wstep fail; frames. Qed.
Lemma avar_frame a b c p :
  wp (avar A a b c p) (fun r => same_except avar_keys [KLIM; KWX; KDV; LVAR] [WS; WL] p (snd r)).
Proof.
  unfold avar. wstep fail. wstep fail. wstep fail.
  eapply wp_conseq; [apply av_refresh_frame|]. intros q H.
  eapply wp_conseq; [apply av_quant_frame|]. intros r H'. cbn beta in H'. frames.
Qed.

(** * qlra, qlrpfl *)
Lemma prep_control_frame m p : wp (prep_control A m p) (same_except [] [MDP; LVAR; MDVAR; KLIM] [] p).
Proof. unfold prep_control. repeat wstep fail; frames. Qed.
Definition prep_keys : list nkey := [HE0; HE1; DL0; DL1; THE0; THE1].
Lemma qlra_frame k0 k1 p : wp (qlra A k0 k1 p) (same_except prep_keys [MDP; LVAR; MDVAR; KLIM] [] p).
Proof.
  unfold qlra.
  repeat match goal with
    | |- wp (prep_control _ _ _) _ => eapply wp_conseq; [apply prep_control_frame|]; intros ? ?
    | _ => wstep fail
    end; frames.
Qed.
Lemma qlrpfl_geom_frame p : wp (qlrpfl_geom A p) (same_except (DIST :: DH :: prep_keys) [] [] p).
Proof.
  unfold qlrpfl_geom.
  repeat match goal with
    | |- wp (bind (if _ then _ else _) _) _ => apply wp_bind; apply wp_any; intros [[[? ?] [? ?]] [? ?]]
    | _ => wstep fail
    end; frames.
Qed.
Lemma qlrpfl_frame p :
  wp (qlrpfl A p) (same_except (DH :: prep_keys ++ lrprop_keys) [KWX; MDP; LVAR; MDVAR; KLIM] [WLOS; WSCAT] p).
Proof.
  unfold qlrpfl. wstep fail. eapply wp_conseq; [apply qlrpfl_geom_frame|]. intros p1 H1.
  wstep fail. eapply wp_conseq; [apply prep_control_frame|]. intros p2 H2.
  eapply wp_conseq; [apply lrprop_frame|]. intros p3 H3. frames.
Qed.
End PfFrame.
