(** Reciprocity of the point-to-point preparation and of the statistics over the reals. *)
From Coq Require Import Lra Lia.
From Verif Require Import RTac Frame SpecReverse Stats Prep PfFrame PfRegime PfLrGen PfAvarReal PfSwap PfHzns PfLsq PfDlthx PfReverse.
Open Scope R_scope.

Lemma ex_pair (p q : prop RA) k0 k1 u v : exchanged p q -> other k0 = k1 -> k0 <> k1 -> exchanged (setn (setn p k0 u) k1 v) (setn (setn q k0 v) k1 u).
Proof.
  intros (N & Z & B & K) E D. split; [|split; [exact Z|split; [exact B | exact K]]]. intros j J. cbn [pn setn].
  assert (E' : other k1 = k0) by (rewrite <- E; apply other_inv).
  destruct (nkey_eqb k1 j) eqn:E1.
  - apply nkey_eqb_eq in E1. subst j. rewrite E'. destruct (nkey_eqb k1 k0) eqn:E2; [apply nkey_eqb_eq in E2; congruence|]. rewrite nkey_eqb_refl. reflexivity.
  - destruct (nkey_eqb k0 j) eqn:E3.
    + apply nkey_eqb_eq in E3. subst j. rewrite E. rewrite nkey_eqb_refl. reflexivity.
    + destruct (nkey_eqb k1 (other j)) eqn:E4.
      * apply nkey_eqb_eq in E4. rewrite E4 in E'. rewrite other_inv in E'. subst j. rewrite nkey_eqb_refl in E3. discriminate.
      * destruct (nkey_eqb k0 (other j)) eqn:E5; [|apply N; exact J].
        apply nkey_eqb_eq in E5. rewrite E5, other_inv in E. subst j. rewrite nkey_eqb_refl in E1. discriminate.
Qed.

(** ** Statistics *)
Lemma sw_tables (i : Z) l (p q p' : prop RA) : (forall k t, In (k, t) l -> other k = k) -> exchanged p q ->
  foldM (fun p kt => let! v := pyget (snd kt) i in Ok (setn p (fst kt) v)) l p = Ok p' ->
  exists q', foldM (fun p kt => let! v := pyget (snd kt) i in Ok (setn p (fst kt) v)) l q = Ok q' /\ exchanged p' q'.
Proof.
  revert p q. induction l as [|[k t] l IH]; intros p q K S H; cbn [foldM fst snd] in *.
  - apply ok_inj in H. subst p'. eauto.
  - apply bind_inv in H as (p1 & E & H). apply bind_inv in E as (v & E & E1). apply ok_inj in E1. subst p1. rewrite E. cbn [bind].
    eapply IH; [intros; eapply K; right; eassumption | | exact H]. apply ex_setn; [exact S | eapply K; left; reflexivity].
Qed.
Lemma sw_klim p q p' : exchanged p q -> av_klim RA p = Ok p' -> exists q', av_klim RA q = Ok q' /\ exchanged p' q'.
Proof.
  intros S H. unfold av_klim in *. exr S. apply bind_inv in H as (kl & E1 & H). stepo. apply bind_inv in H as (p1 & E2 & H).
  assert (X : exists q1, (if (kl <=? 0)%Z || (7 <? kl)%Z then let! kwx := getz q KWX in Ok (setz (setz q KLIM 5) KWX (Z.max kwx 2)) else Ok q) = Ok q1 /\ exchanged p1 q1).
  { destruct (_ || _)%bool.
    - apply bind_inv in E2 as (kw & E2 & E3). apply ok_inj in E3. subst p1. destruct (ex_kwx _ _ _ S E2) as [kw' E4]. rewrite E4. cbn [bind]. eexists. split; [reflexivity|]. exs S.
    - apply ok_inj in E2. subst p1. eauto. }
  destruct X as (q1 & X & S1). stepo. exr S1. apply bind_inv in H as (k2 & E5 & H). stepo. eapply sw_tables; [|exact S1 | exact H].
  intros k t I. cbn in I. repeat (destruct I as [I|I]; [injection I as <- _; reflexivity|]). destruct I.
Qed.
Lemma sw_mode p q p' : exchanged p q -> av_mode RA p = Ok p' -> exists q', av_mode RA q = Ok q' /\ exchanged p' q'.
Proof.
  intros S H. unfold av_mode in *. exr S. apply bind_inv in H as (kd & E1 & H). stepo. cbv zeta in H.
  match type of H with (if ?b then _ else _) = _ => destruct b end.
  - dsimp_in H. dsimp. apply bind_inv in H as (kw & E2 & H). apply ok_inj in H. subst p'. destruct (ex_kwx _ _ _ S E2) as [kw' E4]. rewrite E4. cbn [bind].
    eexists. split; [reflexivity|]. exs S.
  - apply ok_inj in H. subst p'. eexists. split; [reflexivity|]. exs S.
Qed.
Lemma sw_freq p q p' : exchanged p q -> av_freq RA p = Ok p' -> exists q', av_freq RA q = Ok q' /\ exchanged p' q'.
Proof.
  intros S H. unfold av_freq in *. exr S. dsimp_in H. do 6 invb H. repeat stepo. dsimp_in H. dsimp. exr S. do 4 invb H. repeat stepo. apply ok_inj in H. subst p'.
  eexists. split; [reflexivity|]. exs S; reflexivity.
Qed.
Lemma sw_he third p q p' : exchanged p q -> av_he RA third p = Ok p' -> exists q', av_he RA third q = Ok q' /\ exchanged p' q'.
Proof.
  intros S H. unfold av_he in *. exr S. repeat invb H. repeat stepo. apply ok_inj in H. subst p'. eexists. split; [reflexivity|]. exs S.
  f_equal. apply add_comm.
Qed.
Lemma sw_de p q d : exchanged p q -> av_de RA p = Ok d -> av_de RA q = Ok d.
Proof. intros S H. unfold av_de in *. exr S. exact H. Qed.
Lemma sw_avdist p q p' : exchanged p q -> av_dist RA p = Ok p' -> exists q', av_dist RA q = Ok q' /\ exchanged p' q'.
Proof.
  intros S H. unfold av_dist in *. apply bind_inv in H as (de & E & H). apply (sw_de _ _ _ S) in E. stepo. exr S.
  do 6 invb H. repeat stepo. dsimp_in H. dsimp. exr S. do 7 invb H. repeat stepo. dsimp_in H. dsimp. exr S. do 7 invb H. repeat stepo.
  dsimp_in H. dsimp. exr S. invb H. stepo. dsimp_in H. dsimp. exr S. invb H. stepo. dsimp_in H. dsimp. exr S. invb H. stepo.
  apply bind_inv in H as (sgl & Q1 & H). stepo. dsimp_in H. dsimp. exr S. invb H. stepo. apply bind_inv in H as (vs & Q2 & H). stepo.
  apply ok_inj in H. subst p'. eexists. split; [reflexivity|]. exs S; reflexivity.
Qed.
Lemma sw_if (b : bool) (f : prop RA -> res (prop RA)) p q p' : exchanged p q ->
  (forall p q p', exchanged p q -> f p = Ok p' -> exists q', f q = Ok q' /\ exchanged p' q') ->
  (if b then f p else Ok p) = Ok p' -> exists q', (if b then f q else Ok q) = Ok q' /\ exchanged p' q'.
Proof. intros S F H. destruct b; [eapply F; eassumption|]. apply ok_inj in H. subst p'. eauto. Qed.
Lemma sw_refresh third p q p' : exchanged p q -> av_refresh RA third p = Ok p' -> exists q', av_refresh RA third q = Ok q' /\ exchanged p' q'.
Proof.
  intros S H. unfold av_refresh in *. exr S. apply bind_inv in H as (lv & E & H). stepo. destruct (0 <? lv)%Z; [|apply ok_inj in H; subst p'; eauto].
  apply bind_inv in H as (p1 & E1 & H). destruct (sw_if _ _ _ _ _ S sw_klim E1) as (q1 & F1 & S1). refine (bind_step_ex _ _ _ _ F1 _). cbv beta.
  apply bind_inv in H as (p2 & E2 & H). destruct (sw_if _ _ _ _ _ S1 sw_mode E2) as (q2 & F2 & S2). refine (bind_step_ex _ _ _ _ F2 _). cbv beta.
  apply bind_inv in H as (p3 & E3 & H). destruct (sw_if _ _ _ _ _ S2 sw_freq E3) as (q3 & F3 & S3). refine (bind_step_ex _ _ _ _ F3 _). cbv beta.
  apply bind_inv in H as (p4 & E4 & H). destruct (sw_if _ _ _ _ _ S3 (sw_he third) E4) as (q4 & F4 & S4). refine (bind_step_ex _ _ _ _ F4 _). cbv beta.
  eapply sw_avdist; eassumption.
Qed.
Definition same_out (a : R) (p' : prop RA) (r : R * prop RA) : Prop := fst r = a /\ exchanged p' (snd r).
Lemma sw_quant' zt zl zc p q a p' : exchanged p q -> av_quant RA zt zl zc p = Ok (a, p') -> exists r, av_quant RA zt zl zc q = Ok r /\ same_out a p' r.
Proof.
  intros S H. unfold av_quant in *. exr S. apply bind_inv in H as (kd & E & H). stepo. destruct (av_fold RA kd zt zl zc) as [[z1 z2] z3].
  apply bind_inv in H as (p1 & E1 & H).
  assert (X : exists q1, (if ((n_ltb (n_lit 310 100) (n_abs z1)) || (n_ltb (n_lit 310 100) (n_abs z2)) || (n_ltb (n_lit 310 100) (n_abs z3)))%bool
    then let! kwx := getz q KWX in Ok (setz q KWX (Z.max kwx 1)) else Ok q) = Ok q1 /\ exchanged p1 q1).
  { destruct (_ || _)%bool.
    - apply bind_inv in E1 as (kw & E2 & E3). apply ok_inj in E3. subst p1. destruct (ex_kwx _ _ _ S E2) as [kw' E4]. rewrite E4. cbn [bind]. eexists. split; [reflexivity|]. exs S.
    - apply ok_inj in E1. subst p1. eauto. }
  destruct X as (q1 & X & S1). refine (bind_step_ex _ _ _ _ X _). cbv beta.
  apply bind_inv in H as (sg & E2 & H). assert (F2 : av_sgt RA z1 q1 = Ok sg) by (unfold av_sgt in *; exr S1; exact E2). stepo.
  apply bind_inv in H as (r & E3 & H). assert (F3 : av_raw RA kd z1 z2 z3 sg q1 = Ok r) by (unfold av_raw in *; exr S1; exact E3). stepo.
  apply bind_inv in H as (c & E4 & H). stepo. apply ok_inj in H. injection H as <- <-. eexists. split; [reflexivity|]. split; [reflexivity | exact S1].
Qed.
Lemma sw_avar zt zl zc p q a p' : exchanged p q -> avar RA zt zl zc p = Ok (a, p') -> exists q', avar RA zt zl zc q = Ok (a, q') /\ exchanged p' q'.
Proof.
  intros S H. assert (X : exists r, avar RA zt zl zc q = Ok r /\ same_out a p' r).
  { unfold avar in *. apply bind_inv in H as (th & E & H). stepo. apply bind_inv in H as (p1 & E1 & H). destruct (sw_refresh _ _ _ _ S E1) as (q1 & F1 & S1).
    refine (bind_step_ex _ _ _ _ F1 _). cbv beta. eapply sw_quant'; eassumption. }
  destruct X as ([a' q'] & F & E & S'). cbn [fst snd] in *. subst a'. eauto.
Qed.
