(** What avar reads when it refreshes everything, and one height of pimter.py at a time. *)
From Coq Require Import Lia.
From Verif Require Import Frame SpecDict SpecIgnored PfFrame PfPrepGen PfIgnored PfLrGen Scripts Arith.

Section Reads.
Context (A : arith).
Notation num := (num A).
Notation prop := (prop A).
Local Open Scope num_scope.
Implicit Types p q : prop.
Definition base_n : list nkey := [WN; HE0; HE1; DIST; DH; AREF].
Definition base_z : list zkey := [KLIM; MDVAR].
Definition has_kwx p : Prop := exists k, pz p KWX = Some k.
Definition ag2 nk zk bk p q : Prop := agree_on nk zk bk p q /\ has_kwx p /\ has_kwx q.
Lemma ag2_setn nk zk bk p q k v : ag2 nk zk bk p q -> ag2 (k :: nk) zk bk (setn p k v) (setn q k v).
Proof.
  intros (H & Kp & Kq). split; [|split; assumption]. apply ag_setn. destruct H as (H1 & H2 & H3). split; [|split; assumption]. intros j J. apply filter_In in J as [J N]. apply H1. destruct J as [<-|J]; [|exact J].
  rewrite nkey_eqb_refl in N. discriminate.
Qed.
Lemma ag2_weaken nk zk bk nk' zk' bk' p q : subn nk nk' && subz zk zk' && subb bk bk' = true -> ag2 nk' zk' bk' p q -> ag2 nk zk bk p q.
Proof. intros S [H K]. split; [eapply ag_weaken; eassumption | exact K]. Qed.
Lemma klim_tables k : forall l nk zk bk p q, ag2 nk zk bk p q -> same_outcome (ag2 (rev (map fst l) ++ nk) zk bk)
  (foldM (fun p (kt : nkey * list num) => let! v := pyget (snd kt) (k - 1)%Z in Ok (setn p (fst kt) v)) l p) (foldM (fun p (kt : nkey * list num) => let! v := pyget (snd kt) (k - 1)%Z in Ok (setn p (fst kt) v)) l q).
Proof.
  induction l as [|[x t] l IH]; intros nk zk bk p q H; cbn [foldM map rev]; [exact H|]. cbn [fst snd]. rewrite <- app_assoc. cbn [app]. destruct (pyget t (k - 1)) as [v|]; [|reflexivity]. cbn [bind]. apply IH. apply ag2_setn. exact H.
Qed.
Definition klim_n : list nkey := rev (map fst (climate_tables A)) ++ base_n.
Lemma av_klim_fresh p q : ag2 base_n base_z [] p q -> same_outcome (ag2 klim_n [MDVAR] []) (av_klim A p) (av_klim A q).
Proof.
  intros (H & (kp & Kp) & (kq & Kq)). unfold av_klim. rewrite (ag_getz _ _ _ p q KLIM H eq_refl). assert (EP : getz p KLIM = getz q KLIM) by exact (ag_getz _ _ _ p q KLIM H eq_refl). destruct (getz q KLIM) as [kl|] eqn:EQ; [|reflexivity]. cbn [bind].
  assert (X : forall p1 q1 k, ag2 base_n base_z [] p1 q1 -> pz p1 KLIM = Some k -> pz q1 KLIM = Some k -> same_outcome (ag2 klim_n [MDVAR] []) 
    (let! klim := getz p1 KLIM in foldM (fun p kt => let! v := pyget (snd kt) (klim - 1)%Z in Ok (setn p (fst kt) v)) (climate_tables A) p1)
    (let! klim := getz q1 KLIM in foldM (fun p kt => let! v := pyget (snd kt) (klim - 1)%Z in Ok (setn p (fst kt) v)) (climate_tables A) q1)).
  { intros p1 q1 k G E1 E2. rewrite (proj2 (pz_getz A p1 KLIM k) E1), (proj2 (pz_getz A q1 KLIM k) E2). cbn [bind]. eapply so_conseq; [apply klim_tables; exact G|]. intros a b Y. eapply ag2_weaken; [|exact Y]. reflexivity. }
  destruct (_ || _).
  - rewrite (proj2 (pz_getz A p KWX kp) Kp), (proj2 (pz_getz A q KWX kq) Kq). cbn [bind]. apply (X _ _ 5%Z); [|reflexivity|reflexivity].
    split; [|split; eexists; reflexivity]. destruct H as (H1 & H2 & H3). split; [exact H1|]. split; [|intros ? []]. intros j [<-|[<-|[]]]; [reflexivity|]. cbn. apply H2. right. left. reflexivity.
  - cbn [bind]. pose proof (X p q kl (conj H (conj (ex_intro _ kp Kp) (ex_intro _ kq Kq))) (proj1 (pz_getz A p KLIM kl) EP) (proj1 (pz_getz A q KLIM kl) EQ)) as Y. rewrite ?EP, ?EQ in Y. rewrite ?EP, ?EQ. exact Y.
Qed.
Lemma fresh_bind {T} nk zk bk (R : T -> T -> Prop) (m : prop -> res prop) k k' p q : same_outcome (ag2 nk zk bk) (m p) (m q) -> (forall a b, ag2 nk zk bk a b -> same_outcome R (k a) (k' b)) -> same_outcome R (bind (m p) k) (bind (m q) k').
Proof. apply so_bind. Qed.
Lemma av_mode_fresh p q : ag2 klim_n [MDVAR] [] p q -> same_outcome (ag2 klim_n [KDV] [WS; WL]) (av_mode A p) (av_mode A q).
Proof.
  intros (H & (kp & Kp) & (kq & Kq)). unfold av_mode. rewrite (ag_getz _ _ _ p q MDVAR H eq_refl). apply so_bind_same; intro k. cbv zeta. dsimp. rewrite (proj2 (pz_getz A p KWX kp) Kp), (proj2 (pz_getz A q KWX kq) Kq). cbn [bind].
  destruct H as (H1 & _ & _). destruct (_ || _)%bool; cbn [same_outcome]; (split; [|split; eexists; first [reflexivity | eassumption]]); (split; [exact H1|split; [intros j [<-|[]]; reflexivity | intros j [<-|[<-|[]]]; reflexivity]]).
Qed.
Ltac rd2 := repeat match goal with
  | H : ag2 _ _ _ ?p ?q |- context [getn ?p ?k] => rewrite (ag_getn _ _ _ p q k (proj1 H) eq_refl)
  | H : ag2 _ _ _ ?p ?q |- context [getz ?p ?k] => rewrite (ag_getz _ _ _ p q k (proj1 H) eq_refl)
  | H : ag2 _ _ _ ?p ?q |- context [getb ?p ?k] => rewrite (ag_getb _ _ _ p q k (proj1 H) eq_refl)
  end.
Ltac st2 := match goal with
  | |- same_outcome _ (bind ?m ?k) (bind ?m ?k') => apply so_bind_same; intros ?
  | |- same_outcome _ (if ?b then _ else _) _ => destruct b
  | |- same_outcome _ (bind (if ?b then _ else _) _) _ => destruct b
  | |- same_outcome _ (bind (Ok _) _) _ => cbn [bind]
  | |- same_outcome _ (bind (bind _ _) _) _ => rewrite !bind_assoc
  end; cbn beta.
Ltac run2 := repeat first [progress (cbv zeta; dsimp; rd2) | st2].
Lemma av_freq_fresh p q : ag2 klim_n [KDV] [WS; WL] p q -> same_outcome (ag2 (GP :: GM :: klim_n) [KDV] [WS; WL]) (av_freq A p) (av_freq A q).
Proof. intro H. unfold av_freq. run2. cbn [same_outcome]. do 2 apply ag2_setn. exact H. Qed.
Lemma av_he_fresh th p q : ag2 (GP :: GM :: klim_n) [KDV] [WS; WL] p q -> same_outcome (ag2 (DEXA :: GP :: GM :: klim_n) [KDV] [WS; WL]) (av_he A th p) (av_he A th q).
Proof. intro H. unfold av_he. run2. cbn [same_outcome]. apply ag2_setn. exact H. Qed.
Definition dist_n : list nkey := VS0 :: SGL :: TGTD :: SGTD :: SGTP :: SGTM :: VMD :: DEXA :: GP :: GM :: klim_n.
Lemma av_dist_fresh p q : ag2 (DEXA :: GP :: GM :: klim_n) [KDV] [WS; WL] p q -> same_outcome (ag2 dist_n [KDV] [WS; WL]) (av_dist A p) (av_dist A q).
Proof.
  intro H. unfold av_dist. assert (E : av_de A p = av_de A q) by (unfold av_de; rd2; reflexivity). rewrite E. clear E. 
  assert (X : forall x v1 v2 v3 v4 v5 v6, ag2 dist_n [KDV] [WS; WL] (setz (setn (setn (setn (setn (setn (setn (setn p VMD v1) SGTM v2) SGTP v3) SGTD v4) TGTD v5) SGL v6) VS0 x) LVAR 0) (setz (setn (setn (setn (setn (setn (setn (setn q VMD v1) SGTM v2) SGTP v3) SGTD v4) TGTD v5) SGL v6) VS0 x) LVAR 0)).
  { intros. assert (Y : ag2 dist_n [KDV] [WS; WL] (setn (setn (setn (setn (setn (setn (setn p VMD v1) SGTM v2) SGTP v3) SGTD v4) TGTD v5) SGL v6) VS0 x) (setn (setn (setn (setn (setn (setn (setn q VMD v1) SGTM v2) SGTP v3) SGTD v4) TGTD v5) SGL v6) VS0 x)) by (do 7 apply ag2_setn; exact H).
    destruct Y as ((Y1 & Y2 & Y3) & Yp & Yq). split; [|split; assumption]. split; [exact Y1|]. split; [|exact Y3]. intros j [<-|[]]. cbn. apply Y2. left. reflexivity. }
  run2; cbn [same_outcome]; apply X.
Qed.
Lemma avar_fresh t l c p q lp lq : agree_on base_n base_z [] p q -> has_kwx p -> has_kwx q -> pz p LVAR = Some lp -> pz q LVAR = Some lq -> (4 < lp)%Z -> (4 < lq)%Z ->
  same_outcome (fun r s => fst r = fst s) (avar A t l c p) (avar A t l c q).
Proof.
  intros H Kp Kq Lp Lq Gp Gq. unfold avar. apply so_bind_same; intro th. unfold av_refresh. rewrite (proj2 (pz_getz A p LVAR lp) Lp), (proj2 (pz_getz A q LVAR lq) Lq). cbn [bind].
  replace (0 <? lp)%Z with true by lia. replace (4 <? lp)%Z with true by lia. replace (3 <? lp)%Z with true by lia. replace (2 <? lp)%Z with true by lia. replace (1 <? lp)%Z with true by lia.
  replace (0 <? lq)%Z with true by lia. replace (4 <? lq)%Z with true by lia. replace (3 <? lq)%Z with true by lia. replace (2 <? lq)%Z with true by lia. replace (1 <? lq)%Z with true by lia.
  eapply (so_bind (ag2 dist_n [KDV] [WS; WL])).
  { eapply so_bind; [apply av_klim_fresh; split; [exact H | split; assumption]|]. intros p1 q1 H1. eapply so_bind; [apply av_mode_fresh; exact H1|]. intros p2 q2 H2. eapply so_bind; [apply av_freq_fresh; exact H2|]. intros p3 q3 H3.
    eapply so_bind; [apply av_he_fresh; exact H3|]. intros p4 q4 H4. apply av_dist_fresh. exact H4. }
  intros p1 q1 H1. unfold av_quant. rd2. apply so_bind_same; intro kd. destruct (av_fold A kd t l c) as [[zt zl] zc]. cbv zeta.
  eapply (so_bind (ag2 dist_n [KDV] [WS; WL])).
  { destruct (_ || _ || _); [|exact H1]. destruct H1 as ((Y1 & Y2 & Y3) & (kp & Yp) & (kq & Yq)). rewrite (proj2 (pz_getz A p1 KWX kp) Yp), (proj2 (pz_getz A q1 KWX kq) Yq). cbn [bind same_outcome].
    split; [|split; eexists; reflexivity]. split; [exact Y1|]. split; [|exact Y3]. intros j [<-|[]]. cbn. apply Y2. left. reflexivity. }
  intros p2 q2 H2. assert (E : av_sgt A zt p2 = av_sgt A zt q2) by (unfold av_sgt; rd2; reflexivity). rewrite E. apply so_bind_same; intro sg.
  assert (E2 : av_raw A kd zt zl zc sg p2 = av_raw A kd zt zl zc sg q2) by (unfold av_raw; rd2; reflexivity). rewrite E2. do 2 (apply so_bind_same; intro). cbn. reflexivity.
Qed.
End Reads.
