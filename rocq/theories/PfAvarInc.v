(** avar: recomputation at a lower level equals full recomputation (any arithmetic). *)
From Verif Require Import Frame Scripts PfFrame PfLrGen SpecAvar PfAvarGen.

(** * Dictionaries equal up to lvar *)
Section Sl.
Context {A : arith}.
Implicit Types p q : prop A.
Definition sl p q : Prop := same_except [] [LVAR] [] p q.
Lemma sl_getn p q k : sl p q -> getn p k = getn q k.
Proof. intro H. symmetry. eapply fr_getn; [exact H|reflexivity]. Qed.
Lemma sl_getz p q k : sl p q -> memz k [LVAR] = false -> getz p k = getz q k.
Proof. intros H M. symmetry. eapply fr_getz; [exact H|exact M]. Qed.
Lemma sl_getb p q k : sl p q -> getb p k = getb q k.
Proof. intro H. symmetry. eapply fr_getb; [exact H|reflexivity]. Qed.
Lemma sl_setn p q k v : sl p q -> sl (setn p k v) (setn q k v).
Proof.
  intros [H1 [H2 [H3 H4]]]. split; [|split; [|split]]; auto. intros j _. cbn. destruct (nkey_eqb k j); [reflexivity|].
  apply H1. intros [].
Qed.
Lemma sl_setz p q k v : sl p q -> sl (setz p k v) (setz q k v).
Proof.
  intros [H1 [H2 [H3 H4]]]. split; [|split; [|split]]; auto. intros j N. cbn. destruct (zkey_eqb k j); [reflexivity|].
  apply H2. exact N.
Qed.
Lemma sl_setb p q k v : sl p q -> sl (setb p k v) (setb q k v).
Proof.
  intros [H1 [H2 [H3 H4]]]. split; [|split; [|split]]; auto. intros j _. cbn. destruct (bkey_eqb k j); [reflexivity|].
  apply H3. intros [].
Qed.
Lemma sl_lvar p q v : sl p q -> same_dict (setz p LVAR v) (setz q LVAR v).
Proof.
  intros [H1 [H2 [H3 H4]]]. split; [|split; [|split]]; auto. intros j _. cbn.
  destruct (zkey_eqb LVAR j) eqn:E; [reflexivity|]. apply H2. intros [<-|[]]. discriminate E.
Qed.
Lemma sl_sd p q r : sl p q -> same_dict q r -> sl p r.
Proof. intros H K. eapply fr_trans; [exact H|]. eapply fr_weaken; [|exact K]. reflexivity. Qed.
End Sl.
Ltac sl := repeat first [assumption | apply sl_setn | apply sl_setz | apply sl_setb].
Ltac sl_reads :=
  repeat match goal with
  | H : sl ?p ?q |- context [getn ?p ?k] => rewrite (sl_getn p q k H)
  | H : sl ?p ?q |- context [getz ?p ?k] => rewrite (sl_getz p q k H eq_refl)
  | H : sl ?p ?q |- context [getb ?p ?k] => rewrite (sl_getb p q k H)
  end.
Ltac slstep :=
  first
  [ match goal with
    | |- same_outcome _ (bind ?m ?k) (bind ?m ?k') => apply so_bind_same; intros ?
    | |- same_outcome _ (if ?b then _ else _) (if ?b then _ else _) => destruct b
    | |- same_outcome _ (bind (if ?b then _ else _) _) (bind (if ?b then _ else _) _) => destruct b
    | |- same_outcome _ (let (_, _) := ?o in _) (let (_, _) := ?o in _) => destruct o
    | |- same_outcome _ (Ok _) (Ok _) => cbn [same_outcome fst snd]
    | |- same_outcome _ (Err _) (Err _) => reflexivity
    end
  | progress (dsimp; sl_reads) ]; cbn beta.

Section Inc.
Context (A : arith).
Implicit Types p q : prop A.
Local Open Scope num_scope.

Lemma av_mode_sl p q : sl p q -> same_outcome sl (av_mode A p) (av_mode A q).
Proof. intro H. unfold av_mode. sl_reads. repeat slstep; sl. Qed.
Lemma av_freq_sl p q : sl p q -> same_outcome sl (av_freq A p) (av_freq A q).
Proof. intro H. unfold av_freq. sl_reads. repeat slstep; sl. Qed.
Lemma av_he_sl th p q : sl p q -> same_outcome sl (av_he A th p) (av_he A th q).
Proof. intro H. unfold av_he. sl_reads. repeat slstep; sl. Qed.
Lemma av_dist_sl p q : sl p q -> same_outcome same_dict (av_dist A p) (av_dist A q).
Proof. intro H. unfold av_dist, av_de. sl_reads. repeat slstep; (apply sl_lvar; sl). Qed.

(** * A stage run again on its own result changes nothing *)
Lemma map_eq_In {S T} (f g : S -> T) l x : map f l = map g l -> In x l -> f x = g x.
Proof. induction l; cbn; intros H []; inversion H; subst; auto. Qed.
Lemma av_klim_id p q p' : av_klim A p = Ok q -> agree_on climate_keys [KLIM] [] q p' ->
  exists p'', av_klim A p' = Ok p'' /\ same_dict p' p''.
Proof.
  intros H G. assert (exists k, pz p KLIM = Some k) as [k K].
  { unfold av_klim in H. apply bind_inv in H as [k [E _]]. exists k. apply pz_getz. assumption. }
  destruct (av_klim_spec A p q k K H) as [R [Q _]].
  assert (U : (1 <= climate_used k <= 7)%Z).
  { unfold climate_used. destruct ((1 <=? k)%Z && (k <=? 7)%Z) eqn:B; lia. }
  assert (K' : pz p' KLIM = Some (climate_used k)).
  { destruct G as [_ [G _]]. rewrite <- G; [assumption|]. left. reflexivity. }
  unfold av_klim. rewrite (proj2 (pz_getz A p' KLIM _) K'). cbn [bind].
  replace ((climate_used k <=? 0)%Z || (7 <? climate_used k)%Z) with false by lia. cbn [bind].
  rewrite (proj2 (pz_getz A p' KLIM _) K'). cbn [bind].
  destruct (foldM_tables A (climate_used k) U p') as [p'' [E [F M]]].
  exists p''. split; [exact E|].
  destruct F as [F1 [F2 [F3 F4]]]. split; [|split; [|split]]; auto.
  intros j _. destruct (memn j climate_keys) eqn:B.
  - apply memn_In in B.
    assert (X : map (pn p'') climate_keys = map (pn q) climate_keys) by congruence.
    assert (Y := map_eq_In _ _ _ j X B). rewrite Y. destruct G as [G _]. apply G. assumption.
  - apply F1. apply memn_nIn. assumption.
Qed.
Lemma av_mode_id p q p' : av_mode A p = Ok q -> agree_on [] [MDVAR; KDV] [WS; WL] q p' ->
  (forall k, pz q KWX = Some k -> exists k', pz p' KWX = Some k' /\ (k <= k')%Z) ->
  exists p'', av_mode A p' = Ok p'' /\ same_dict p' p''.
Proof.
  intros H [_ [Gz Gb]] Kx. assert (F := av_mode_frame A p q H).
  assert (exists m, pz p MDVAR = Some m) as [m M].
  { unfold av_mode in H. apply bind_inv in H as [k [E _]]. exists k. apply pz_getz. assumption. }
  destruct (av_mode_spec A p q m M H) as [Ws [Wl S]].
  assert (M' : pz p' MDVAR = Some m).
  { rewrite <- Gz; [|cbn; auto]. destruct F as [_ [F _]]. rewrite F; [assumption|]. cbn. intuition congruence. }
  unfold av_mode. rewrite (proj2 (pz_getz A p' MDVAR m) M'). cbn [bind].
  set (ws := (20 <=? m)%Z) in *. set (m1 := if ws then (m - 20)%Z else m) in *.
  set (wl := (10 <=? m1)%Z) in *. set (m2 := if wl then (m1 - 10)%Z else m1) in *.
  rewrite Gb in Ws by (cbn; auto). rewrite Gb in Wl by (cbn; auto). rewrite Gz in S by (cbn; auto).
  assert (B : same_dict p' (setb (setb p' WS ws) WL wl)).
  { eapply sd_trans; [apply sd_setb_id; exact Ws|]. apply sd_setb_id. cbn. exact Wl. }
  destruct ((0 <=? m2)%Z && (m2 <=? 3)%Z) eqn:V.
  - replace ((m2 <? 0)%Z || (3 <? m2)%Z) with false by lia.
    eexists. split; [reflexivity|]. eapply sd_trans; [exact B|]. apply sd_setz_id. cbn. apply S.
  - replace ((m2 <? 0)%Z || (3 <? m2)%Z) with true by lia.
    destruct S as [S [k [Ep Eq]]]. destruct (Kx _ Eq) as [k' [Ek L]].
    dsimp. rewrite (proj2 (pz_getz A p' KWX k') Ek). cbn [bind].
    eexists. split; [reflexivity|].
    eapply sd_trans; [exact B|]. eapply sd_trans; [apply sd_setz_id with (k := KDV) (v := 0%Z); exact S|].
    apply sd_setz_id. cbn. rewrite Ek. f_equal. lia.
Qed.
Lemma av_freq_id p q p' : av_freq A p = Ok q -> agree_on [WN; GM; GP; CFM1; CFM2; CFM3; CFP1; CFP2; CFP3] [] [] q p' ->
  exists p'', av_freq A p' = Ok p'' /\ same_dict p' p''.
Proof.
  intros H G. assert (F := av_freq_frame A p q H). unfold av_freq in H.
  apply bind_inv in H as [wn [E1 H]]. apply bind_inv in H as [l [E2 H]].
  apply bind_inv in H as [c1 [E3 H]]. apply bind_inv in H as [c2 [E4 H]]. apply bind_inv in H as [c3 [E5 H]].
  apply bind_inv in H as [gm [E6 H]]. dsimp_in H.
  apply bind_inv in H as [d1 [E7 H]]. dsimp_in H.
  apply bind_inv in H as [d2 [E8 H]]. dsimp_in H.
  apply bind_inv in H as [d3 [E9 H]].
  apply bind_inv in H as [gp [E10 H]]. inversion H as [Hq].
  assert (X : forall k v, memn k [WN; CFM1; CFM2; CFM3; CFP1; CFP2; CFP3] = true -> getn p k = Ok v -> getn p' k = Ok v).
  { intros k v Mk E. rewrite <- E.
    transitivity (getn q k); [|apply (fr_getn _ _ _ _ _ k F); destruct k; cbn in Mk |- *; congruence].
    symmetry. eapply ag_getn; [exact G|]. destruct k; cbn in Mk |- *; congruence. }
  unfold av_freq. dsimp.
  rewrite (X WN wn eq_refl E1). cbn [bind]. rewrite E2. cbn [bind].
  rewrite (X CFM1 c1 eq_refl E3). cbn [bind]. rewrite (X CFM2 c2 eq_refl E4). cbn [bind].
  rewrite (X CFM3 c3 eq_refl E5). cbn [bind]. rewrite E6. cbn [bind]. dsimp.
  rewrite (X CFP1 d1 eq_refl E7). cbn [bind]. dsimp. rewrite (X CFP2 d2 eq_refl E8). cbn [bind]. dsimp.
  rewrite (X CFP3 d3 eq_refl E9). cbn [bind]. rewrite E10. cbn [bind].
  eexists. split; [reflexivity|].
  assert (Vm : pn p' GM = Some gm) by (destruct G as [G _]; rewrite <- G; [subst q; reflexivity | cbn; auto]).
  assert (Vp : pn p' GP = Some gp) by (destruct G as [G _]; rewrite <- G; [subst q; reflexivity | cbn; auto]).
  eapply sd_trans; [apply sd_setn_id; exact Vm|]. apply sd_setn_id. cbn. exact Vp.
Qed.
Lemma av_he_id th p q p' : av_he A th p = Ok q -> agree_on [WN; HE0; HE1; DEXA] [] [] q p' ->
  exists p'', av_he A th p' = Ok p'' /\ same_dict p' p''.
Proof.
  intros H G. assert (F := av_he_frame A th p q H). unfold av_he in H.
  apply bind_inv in H as [h0 [E1 H]]. apply bind_inv in H as [s0 [E2 H]].
  apply bind_inv in H as [h1 [E3 H]]. apply bind_inv in H as [s1 [E4 H]].
  apply bind_inv in H as [wn [E5 H]]. apply bind_inv in H as [t [E6 H]]. apply bind_inv in H as [u [E7 H]].
  inversion H as [Hq].
  assert (X : forall k v, memn k [WN; HE0; HE1] = true -> getn p k = Ok v -> getn p' k = Ok v).
  { intros k v Mk E. rewrite <- E.
    transitivity (getn q k); [|apply (fr_getn _ _ _ _ _ k F); destruct k; cbn in Mk |- *; congruence].
    symmetry. eapply ag_getn; [exact G|]. destruct k; cbn in Mk |- *; congruence. }
  unfold av_he.
  rewrite (X HE0 h0 eq_refl E1). cbn [bind]. rewrite E2. cbn [bind].
  rewrite (X HE1 h1 eq_refl E3). cbn [bind]. rewrite E4. cbn [bind].
  rewrite (X WN wn eq_refl E5). cbn [bind]. rewrite E6. cbn [bind]. rewrite E7. cbn [bind].
  eexists. split; [reflexivity|]. apply sd_setn_id.
  destruct G as [G _]. rewrite <- G; [subst q; reflexivity | cbn; auto].
Qed.

(** * C20 *)
Lemma sd_ag nk zk bk p q r : same_dict q r -> agree_on nk zk bk p q -> agree_on nk zk bk p r.
Proof.
  intros [S1 [S2 [S3 _]]] [G1 [G2 G3]]. split; [|split].
  - intros k I. rewrite S1 by (intros []). auto.
  - intros k I. rewrite S2 by (intros []). auto.
  - intros k I. rewrite S3 by (intros []). auto.
Qed.
Lemma fr_ag nk zk bk nk' zk' bk' p q :
  forallb (fun k => negb (memn k nk)) nk' && forallb (fun k => negb (memz k zk)) zk'
    && forallb (fun k => negb (memb k bk)) bk' = true ->
  same_except nk zk bk p q -> agree_on nk' zk' bk' p q.
Proof.
  intros S [F1 [F2 [F3 _]]]. apply andb_true_iff in S as [S S3]. apply andb_true_iff in S as [S1 S2].
  rewrite forallb_forall in S1, S2, S3. split; [|split]; intros k I; symmetry.
  - apply F1. apply memn_nIn. apply negb_true_iff. auto.
  - apply F2. apply memz_nIn. apply negb_true_iff. auto.
  - apply F3. apply memb_nIn. apply negb_true_iff. auto.
Qed.
Lemma ag_trans nk zk bk p q r : agree_on nk zk bk p q -> agree_on nk zk bk q r -> agree_on nk zk bk p r.
Proof.
  intros [F1 [F2 F3]] [G1 [G2 G3]]. split; [|split]; intros k I.
  - rewrite F1, G1; auto.
  - rewrite F2, G2; auto.
  - rewrite F3, G3; auto.
Qed.

(** What a full run leaves behind. *)
Record full_run th p : Prop := {
  fr_klim : exists a b, av_klim A a = Ok b /\ agree_on climate_keys [KLIM] [] b p;
  fr_mode : exists a b, av_mode A a = Ok b /\ agree_on [] [MDVAR; KDV] [WS; WL] b p /\
            (forall k, pz b KWX = Some k -> exists k', pz p KWX = Some k' /\ (k <= k')%Z);
  fr_freq : exists a b, av_freq A a = Ok b /\ agree_on [WN; GM; GP; CFM1; CFM2; CFM3; CFP1; CFP2; CFP3] [] [] b p;
  fr_he : exists a b, av_he A th a = Ok b /\ agree_on [WN; HE0; HE1; DEXA] [] [] b p }.

Lemma av_quant_kwx_le t l c p a q : av_quant A t l c p = Ok (a, q) ->
  forall k, pz p KWX = Some k -> exists k', pz q KWX = Some k' /\ (k <= k')%Z.
Proof.
  intros H k K. unfold av_quant in H. apply bind_inv in H as [kdv [E H]]. destruct (av_fold A kdv t l c) as [[zt zl] zc].
  apply bind_inv in H as [p' [E' H]].
  assert (q = p').
  { apply bind_inv in H as [? [_ H]]. apply bind_inv in H as [? [_ H]]. apply bind_inv in H as [? [_ H]].
    inversion H. reflexivity. }
  subst q. destruct (_ || _ || _).
  - apply bind_inv in E' as [j [Ej E']]. inversion E'; subst p'. apply pz_getz in Ej. cbn.
    eexists. split; [reflexivity|]. rewrite K in Ej. inversion Ej. lia.
  - inversion E'; subst. exists k. split; [assumption | lia].
Qed.
Lemma avar_full t l c p a q lv : pz p LVAR = Some lv -> (4 < lv)%Z -> avar A t l c p = Ok (a, q) ->
  exists th, #1 /? #3 = Ok th /\ full_run th q.
Proof.
  intros E L H. unfold avar in H. apply bind_inv in H as [th [T H]]. exists th. split; [exact T|].
  apply bind_inv in H as [s [R H]]. unfold av_refresh in R.
  rewrite (proj2 (pz_getz A p LVAR lv) E) in R. cbn [bind] in R.
  replace (0 <? lv)%Z with true in R by lia. replace (4 <? lv)%Z with true in R by lia.
  replace (3 <? lv)%Z with true in R by lia. replace (2 <? lv)%Z with true in R by lia.
  replace (1 <? lv)%Z with true in R by lia.
  apply bind_inv in R as [s1 [R1 R]]. apply bind_inv in R as [s2 [R2 R]]. apply bind_inv in R as [s3 [R3 R]].
  apply bind_inv in R as [s4 [R4 R5]].
  assert (F2 := av_mode_frame A s1 s2 R2). assert (F3 := av_freq_frame A s2 s3 R3).
  assert (F4 := av_he_frame A th s3 s4 R4). assert (F5 := av_dist_frame A s4 s R5).
  assert (F6 := av_quant_frame A t l c s (a, q) H). cbn [snd] in F6.
  assert (Z6 := av_quant_kwx_le t l c s a q H).
  split.
  - exists p, s1. split; [assumption|].
    eapply ag_trans; [eapply fr_ag; [|exact F2]; reflexivity|].
    eapply ag_trans; [eapply fr_ag; [|exact F3]; reflexivity|].
    eapply ag_trans; [eapply fr_ag; [|exact F4]; reflexivity|].
    eapply ag_trans; [eapply fr_ag; [|exact F5]; reflexivity|].
    eapply fr_ag; [|exact F6]; reflexivity.
  - exists s1, s2. split; [assumption|]. split.
    + eapply ag_trans; [eapply fr_ag; [|exact F3]; reflexivity|].
      eapply ag_trans; [eapply fr_ag; [|exact F4]; reflexivity|].
      eapply ag_trans; [eapply fr_ag; [|exact F5]; reflexivity|].
      eapply fr_ag; [|exact F6]; reflexivity.
    + intros k K. apply Z6. rewrite <- K. destruct F3 as [_ [F3 _]]. destruct F4 as [_ [F4 _]]. destruct F5 as [_ [F5 _]].
      rewrite F5, F4, F3; [reflexivity| | |]; cbn; intuition congruence.
  - exists s2, s3. split; [assumption|].
    eapply ag_trans; [eapply fr_ag; [|exact F4]; reflexivity|].
    eapply ag_trans; [eapply fr_ag; [|exact F5]; reflexivity|].
    eapply fr_ag; [|exact F6]; reflexivity.
  - exists s3, s4. split; [assumption|].
    eapply ag_trans; [eapply fr_ag; [|exact F5]; reflexivity|].
    eapply fr_ag; [|exact F6]; reflexivity.
Qed.


(** A state [p'] obtained from a fully computed [q] by changing only entries above level [lv]. *)
Lemma avar_incremental t l c q p' lv th : #1 /? #3 = Ok th -> full_run th q -> (1 <= lv <= 4)%Z ->
  agree_on (kept_n lv) (kept_z lv) (kept_b lv) q p' ->
  (forall k, pz q KWX = Some k -> exists k', pz p' KWX = Some k' /\ (k <= k')%Z) ->
  same_outcome (fun r s => fst r = fst s /\ same_dict (snd r) (snd s))
    (avar A t l c (setz p' LVAR lv)) (avar A t l c (setz p' LVAR 5)).
Proof.
  intros T [[a1 [b1 [R1 G1]]] [a2 [b2 [R2 [G2 K2]]]] [a3 [b3 [R3 G3]]] [a4 [b4 [R4 G4]]]] L G K.
  unfold avar. rewrite T. cbn [bind].
  apply so_bind with (P := same_dict); [|intros; apply av_quant_sd; assumption].
  unfold av_refresh. dsimp. cbn [Z.ltb Z.compare Pos.compare Pos.compare_cont].
  replace (0 <? lv)%Z with true by lia. replace (4 <? lv)%Z with false by lia. cbn [bind].
  set (P := setz p' LVAR lv). set (Q := setz p' LVAR 5).
  assert (S0 : sl P Q).
  { unfold P, Q. apply fr_trans with p'; [apply fr_sym|]; apply fr_setz; try reflexivity; apply fr_refl. }
  assert (GQ : agree_on (kept_n lv) (kept_z lv) (kept_b lv) q Q).
  { eapply ag_trans; [exact G|]. split; [|split]; intros k I; try reflexivity. unfold Q. cbn.
    destruct (zkey_eqb LVAR k) eqn:E; [|reflexivity]. apply zkey_eqb_eq in E. subst k. exfalso.
    unfold kept_z in I. destruct (lv <? 4)%Z; cbn in I; intuition congruence. }
  assert (KQ : forall k, pz q KWX = Some k -> exists k', pz Q KWX = Some k' /\ (k <= k')%Z) by exact K.
  assert (KQ' : forall k, pz b2 KWX = Some k -> exists k', pz Q KWX = Some k' /\ (k <= k')%Z).
  { intros k E. destruct (K2 k E) as [k' [E' L']]. destruct (KQ k' E') as [k'' [E'' L'']].
    exists k''. split; [assumption | lia]. }
  assert (lv = 1 \/ lv = 2 \/ lv = 3 \/ lv = 4)%Z as D by lia.
  clearbody P Q. clear G K KQ K2.
  destruct (av_klim_id a1 b1 Q R1) as [q1 [E1 D1]].
  { eapply ag_trans; [exact G1|]. destruct D as [->|[->|[->| ->]]]; (eapply ag_weaken; [|exact GQ]; reflexivity). }
  rewrite E1. cbn [bind].
  destruct D as [->|[->|[->| ->]]]; cbn [Z.ltb Z.compare Pos.compare Pos.compare_cont bind].
  - destruct (av_mode_id a2 b2 q1 R2) as [q2 [E2 D2]].
    { eapply ag_trans; [exact G2|]. apply (sd_ag _ _ _ q Q q1 D1). eapply ag_weaken; [|exact GQ]; reflexivity. }
    { intros k E. destruct (KQ' k E) as [k' [E' L']]. exists k'. split; [|assumption].
      destruct D1 as [_ [D1 _]]. rewrite D1 by (intros []). assumption. }
    rewrite E2. cbn [bind].
    assert (D12 := sd_trans _ _ _ _ D1 D2).
    destruct (av_freq_id a3 b3 q2 R3) as [q3 [E3 D3]].
    { eapply ag_trans; [exact G3|]. apply (sd_ag _ _ _ q Q q2 D12). eapply ag_weaken; [|exact GQ]; reflexivity. }
    rewrite E3. cbn [bind]. assert (D13 := sd_trans _ _ _ _ D12 D3).
    destruct (av_he_id th a4 b4 q3 R4) as [q4 [E4 D4]].
    { eapply ag_trans; [exact G4|]. apply (sd_ag _ _ _ q Q q3 D13). eapply ag_weaken; [|exact GQ]; reflexivity. }
    rewrite E4. cbn [bind]. assert (D14 := sd_trans _ _ _ _ D13 D4).
    apply av_dist_sl. eapply sl_sd; eassumption.
  - destruct (av_mode_id a2 b2 q1 R2) as [q2 [E2 D2]].
    { eapply ag_trans; [exact G2|]. apply (sd_ag _ _ _ q Q q1 D1). eapply ag_weaken; [|exact GQ]; reflexivity. }
    { intros k E. destruct (KQ' k E) as [k' [E' L']]. exists k'. split; [|assumption].
      destruct D1 as [_ [D1 _]]. rewrite D1 by (intros []). assumption. }
    rewrite E2. cbn [bind].
    assert (D12 := sd_trans _ _ _ _ D1 D2).
    destruct (av_freq_id a3 b3 q2 R3) as [q3 [E3 D3]].
    { eapply ag_trans; [exact G3|]. apply (sd_ag _ _ _ q Q q2 D12). eapply ag_weaken; [|exact GQ]; reflexivity. }
    rewrite E3. cbn [bind]. assert (D13 := sd_trans _ _ _ _ D12 D3).
    eapply so_bind; [apply av_he_sl; eapply sl_sd; eassumption|]. intros ? ? ?. apply av_dist_sl. assumption.
  - destruct (av_mode_id a2 b2 q1 R2) as [q2 [E2 D2]].
    { eapply ag_trans; [exact G2|]. apply (sd_ag _ _ _ q Q q1 D1). eapply ag_weaken; [|exact GQ]; reflexivity. }
    { intros k E. destruct (KQ' k E) as [k' [E' L']]. exists k'. split; [|assumption].
      destruct D1 as [_ [D1 _]]. rewrite D1 by (intros []). assumption. }
    rewrite E2. cbn [bind].
    assert (D12 := sd_trans _ _ _ _ D1 D2).
    eapply so_bind; [apply av_freq_sl; eapply sl_sd; eassumption|]. intros ? ? ?.
    eapply so_bind; [apply av_he_sl; eassumption|]. intros ? ? ?. apply av_dist_sl. assumption.
  - eapply so_bind; [apply av_mode_sl; eapply sl_sd; eassumption|]. intros ? ? ?.
    eapply so_bind; [apply av_freq_sl; eassumption|]. intros ? ? ?.
    eapply so_bind; [apply av_he_sl; eassumption|]. intros ? ? ?. apply av_dist_sl. assumption.
Qed.

Lemma avar_incremental_run t0 l0 c0 p a q p' lv t l c lv0 :
  pz p LVAR = Some lv0 -> (4 < lv0)%Z -> avar A t0 l0 c0 p = Ok (a, q) -> (1 <= lv <= 4)%Z ->
  agree_on (kept_n lv) (kept_z lv) (kept_b lv) q p' ->
  (forall k, pz q KWX = Some k -> exists k', pz p' KWX = Some k' /\ (k <= k')%Z) ->
  same_outcome (fun r s => fst r = fst s /\ same_dict (snd r) (snd s))
    (avar A t l c (setz p' LVAR lv)) (avar A t l c (setz p' LVAR 5)).
Proof.
  intros E L0 H L G K. destruct (avar_full t0 l0 c0 p a q lv0 E L0 H) as [th [T F]].
  eapply avar_incremental; eassumption.
Qed.
End Inc.
