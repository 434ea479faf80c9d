(** avar in any arithmetic: caches, mode and climate decoding. *)
From Verif Require Import Frame Scripts PfFrame PfLrGen SpecAvar.

Section PfAvarGen.
Context (A : arith).
Implicit Types p q : prop A.
Local Open Scope num_scope.

(** * Equal dictionaries *)
Lemma sd_refl p : same_dict p p. Proof. apply fr_refl. Qed.
Lemma sd_sym p q : same_dict p q -> same_dict q p. Proof. apply fr_sym. Qed.
Lemma sd_trans p q r : same_dict p q -> same_dict q r -> same_dict p r. Proof. apply fr_trans. Qed.
Lemma sd_getn p q k : same_dict p q -> getn p k = getn q k.
Proof. intro H. symmetry. eapply fr_getn; [exact H|reflexivity]. Qed.
Lemma sd_getz p q k : same_dict p q -> getz p k = getz q k.
Proof. intro H. symmetry. eapply fr_getz; [exact H|reflexivity]. Qed.
Lemma sd_getb p q k : same_dict p q -> getb p k = getb q k.
Proof. intro H. symmetry. eapply fr_getb; [exact H|reflexivity]. Qed.
Lemma sd_setn p q k v : same_dict p q -> same_dict (setn p k v) (setn q k v).
Proof.
  intros [H1 [H2 [H3 H4]]]. repeat split; auto. intros j _. cbn. destruct (nkey_eqb k j); [reflexivity|].
  apply H1. intros [].
Qed.
Lemma sd_setz p q k v : same_dict p q -> same_dict (setz p k v) (setz q k v).
Proof.
  intros [H1 [H2 [H3 H4]]]. repeat split; auto. intros j _. cbn. destruct (zkey_eqb k j); [reflexivity|].
  apply H2. intros [].
Qed.
Lemma sd_setb p q k v : same_dict p q -> same_dict (setb p k v) (setb q k v).
Proof.
  intros [H1 [H2 [H3 H4]]]. repeat split; auto. intros j _. cbn. destruct (bkey_eqb k j); [reflexivity|].
  apply H3. intros [].
Qed.
Lemma sd_setn_id p k v : pn p k = Some v -> same_dict p (setn p k v).
Proof.
  intro H. repeat split; intros j _; cbn. destruct (nkey_eqb k j) eqn:E; [|reflexivity].
  apply nkey_eqb_eq in E. subst. symmetry. assumption.
Qed.
Lemma sd_setz_id p k v : pz p k = Some v -> same_dict p (setz p k v).
Proof.
  intro H. repeat split; intros j _; cbn. destruct (zkey_eqb k j) eqn:E; [|reflexivity].
  apply zkey_eqb_eq in E. subst. symmetry. assumption.
Qed.
Lemma sd_setb_id p k v : pb p k = Some v -> same_dict p (setb p k v).
Proof.
  intro H. repeat split; intros j _; cbn. destruct (bkey_eqb k j) eqn:E; [|reflexivity].
  apply bkey_eqb_eq in E. subst. symmetry. assumption.
Qed.
End PfAvarGen.

Ltac sd := repeat first [assumption | apply sd_refl | apply sd_setn | apply sd_setz | apply sd_setb].
Ltac sd_reads :=
  repeat match goal with
  | H : same_dict ?p ?q |- context [getn ?p ?k] => rewrite (sd_getn _ p q k H)
  | H : same_dict ?p ?q |- context [getz ?p ?k] => rewrite (sd_getz _ p q k H)
  | H : same_dict ?p ?q |- context [getb ?p ?k] => rewrite (sd_getb _ p q k H)
  end.
Ltac sdstep :=
  first
  [ match goal with
    | |- same_outcome _ (bind ?m ?k) (bind ?m ?k') => apply so_bind_same; intros ?
    | |- same_outcome _ (if ?b then _ else _) (if ?b then _ else _) => destruct b
    | |- same_outcome _ (bind (if ?b then _ else _) _) (bind (if ?b then _ else _) _) => destruct b
    | |- same_outcome _ (let (_, _) := ?o in _) (let (_, _) := ?o in _) => destruct o
    | |- same_outcome _ (Ok _) (Ok _) => cbn [same_outcome fst snd]
    | |- same_outcome _ (Err _) (Err _) => reflexivity
    end
  | progress (dsimp; sd_reads) ]; cbn beta.

Section PfAvarGen2.
Context (A : arith).
Implicit Types p q : prop A.
Local Open Scope num_scope.

Lemma av_dist_sd p q : same_dict p q -> same_outcome same_dict (av_dist A p) (av_dist A q).
Proof.
  intro H. unfold av_dist, av_de. sd_reads. repeat sdstep; sd.
Qed.
Lemma av_he_sd th p q : same_dict p q -> same_outcome same_dict (av_he A th p) (av_he A th q).
Proof. intro H. unfold av_he. sd_reads. repeat sdstep; sd. Qed.
Lemma av_freq_sd p q : same_dict p q -> same_outcome same_dict (av_freq A p) (av_freq A q).
Proof. intro H. unfold av_freq. sd_reads. repeat sdstep; sd. Qed.
Lemma av_mode_sd p q : same_dict p q -> same_outcome same_dict (av_mode A p) (av_mode A q).
Proof. intro H. unfold av_mode. sd_reads. repeat sdstep; sd. Qed.
Lemma av_quant_sd t l c p q : same_dict p q ->
  same_outcome (fun r s => fst r = fst s /\ same_dict (snd r) (snd s)) (av_quant A t l c p) (av_quant A t l c q).
Proof.
  intro H. unfold av_quant, av_raw, av_sgt. sd_reads. apply so_bind_same. intro kdv.
  destruct (av_fold A kdv t l c) as [[zt zl] zc].
  apply so_bind with (P := same_dict).
  - destruct (_ || _ || _); cbn [same_outcome]; [|assumption]. apply so_bind_same; intro k. cbn [same_outcome]. sd.
  - intros p' q' H'. sd_reads. apply so_bind_same; intro sgt. apply so_bind_same; intro a.
    apply so_bind_same; intro b. cbn. auto.
Qed.

(** * C19 *)
Definition kwx_only p q : Prop := same_except [] [KWX] [] p q /\ (pz p KWX = None <-> pz q KWX = None).
Lemma kwx_only_refl p : kwx_only p p. Proof. split; [apply fr_refl | reflexivity]. Qed.
Lemma kwx_only_trans p q r : kwx_only p q -> kwx_only q r -> kwx_only p r.
Proof. intros [F1 E1] [F2 E2]. split; [eapply fr_trans; eassumption | tauto]. Qed.
Lemma av_refresh_lvar th p q : av_refresh A th p = Ok q -> exists lv, pz q LVAR = Some lv /\ (lv <= 0)%Z.
Proof.
  unfold av_refresh. intro H. apply bind_inv in H as [lv [E H]]. destruct (0 <? lv)%Z eqn:G.
  - repeat (apply bind_inv in H; destruct H as [? [_ H]]). exists 0%Z. split; [|lia].
    unfold av_dist in H. repeat (apply bind_inv in H; destruct H as [? [_ H]]).
    inversion H. reflexivity.
  - inversion H; subst. exists lv. split; [apply pz_getz; assumption | lia].
Qed.
Lemma av_quant_kwx t l c p a q : av_quant A t l c p = Ok (a, q) -> kwx_only p q.
Proof.
  intro H. assert (F := av_quant_frame A t l c p (a, q) H). cbn [snd] in F. split; [assumption|].
  unfold av_quant in H. apply bind_inv in H as [kdv [E H]]. destruct (av_fold A kdv t l c) as [[zt zl] zc].
  apply bind_inv in H as [p' [E' H]].
  assert (q = p').
  { apply bind_inv in H as [? [_ H]]. apply bind_inv in H as [? [_ H]]. apply bind_inv in H as [? [_ H]].
    inversion H. reflexivity. }
  subst q. destruct (_ || _ || _).
  - apply bind_inv in E' as [k [Ek E']]. inversion E'; subst p'. apply pz_getz in Ek. cbn. split; congruence.
  - inversion E'. reflexivity.
Qed.
Lemma av_quant_ext t l c p q : kwx_only p q ->
  same_outcome (fun r s => fst r = fst s) (av_quant A t l c p) (av_quant A t l c q).
Proof.
  intros [F K]. assert (G : agree_on avar_keys [KDV] [] p q).
  { destruct F as [F1 [F2 _]]. split; [|split; [|intros k []]].
    - intros k _. symmetry. apply F1. intros [].
    - intros k [<-|[]]. symmetry. apply F2. cbn. intuition congruence. }
  assert (Ga : getn p AREF = getn q AREF) by (symmetry; eapply fr_getn; [exact F | reflexivity]).
  unfold av_quant. rewr_reads. apply so_bind_same; intro kdv.
  destruct (av_fold A kdv t l c) as [[zt zl] zc].
  apply so_bind with (P := fun p' q' => agree_on avar_keys [KDV] [] p' q' /\ getn p' AREF = getn q' AREF).
  - destruct (_ || _ || _); [|cbn; auto].
    unfold getz. destruct (pz p KWX) as [k1|] eqn:E1, (pz q KWX) as [k2|] eqn:E2; cbn [opt_res bind same_outcome].
    + split; [|exact Ga]. destruct G as [G1 [G2 G3]]. split; [|split; [|intros k []]].
      * exact G1.
      * intros k [<-|[]]. apply G2. left. reflexivity.
    + exfalso. destruct K as [_ K]. specialize (K eq_refl). discriminate.
    + exfalso. destruct K as [K _]. specialize (K eq_refl). discriminate.
    + reflexivity.
  - intros p' q' [G' Ga']. unfold av_sgt, av_raw. rewrite Ga'. rewr_reads.
    apply so_bind_same; intro sgt. apply so_bind_same; intro a. apply so_bind_same; intro b. reflexivity.
Qed.
Lemma avar_quant_of q lv (th t l c : num A) : #1 /? #3 = Ok th -> pz q LVAR = Some lv -> (lv <= 0)%Z ->
  avar A t l c q = av_quant A t l c q.
Proof.
  intros T E L. unfold avar. rewrite T. cbn [bind]. unfold av_refresh, getz. rewrite E. cbn [opt_res bind].
  replace (0 <? lv)%Z with false by lia. reflexivity.
Qed.
Lemma avar_settled t l c p a q (th : num A) : #1 /? #3 = Ok th -> avar A t l c p = Ok (a, q) ->
  exists lv, pz q LVAR = Some lv /\ (lv <= 0)%Z.
Proof.
  intros T H. unfold avar in H. rewrite T in H. cbn [bind] in H. apply bind_inv in H as [p1 [E H]].
  destruct (av_refresh_lvar th p p1 E) as [lv [E1 L]]. apply av_quant_kwx in H. destruct H as [[_ [F _]] _].
  exists lv. split; [|assumption]. rewrite F; [assumption|]. cbn. intuition congruence.
Qed.
Lemma avar_calls_kwx (th : num A) lv zs : #1 /? #3 = Ok th -> (lv <= 0)%Z -> forall q r q',
  pz q LVAR = Some lv -> avar_calls A (avar A) zs q = Ok (r, q') -> kwx_only q q'.
Proof.
  intros T L. induction zs as [|[[t l] c] zs IH]; intros q r q' E H; cbn [avar_calls] in H.
  - inversion H. apply kwx_only_refl.
  - apply bind_inv in H as [[a q1] [E1 H]]. apply bind_inv in H as [[r1 q2] [E2 H]]. inversion H; subst.
    rewrite (avar_quant_of q lv th t l c T E L) in E1. apply av_quant_kwx in E1.
    eapply kwx_only_trans; [exact E1|]. eapply IH; [|exact E2].
    destruct E1 as [[_ [F _]] _]. rewrite F; [assumption|]. cbn. intuition congruence.
Qed.
(** The value of a call does not depend on calls made before it. *)
Lemma avar_history t l c p a q zs r q' : avar A t l c p = Ok (a, q) -> avar_calls A (avar A) zs q = Ok (r, q') ->
  same_except [] [KWX] [] q q' /\
  (forall t' l' c', same_outcome (fun x y => fst x = fst y) (avar A t' l' c' q') (avar A t' l' c' p)).
Proof.
  intros H Hs. assert (exists th : num A, #1 /? #3 = Ok th) as [th T].
  { unfold avar in H. apply bind_inv in H as [th [T _]]. eauto. }
  destruct (avar_settled t l c p a q th T H) as [lv [E L]].
  assert (K := avar_calls_kwx th lv zs T L q r q' E Hs).
  split; [apply K|]. intros t' l' c'.
  assert (E' : pz q' LVAR = Some lv).
  { destruct K as [[_ [F _]] _]. rewrite F; [assumption|]. cbn. intuition congruence. }
  rewrite (avar_quant_of q' lv th t' l' c' T E' L).
  unfold avar in H. rewrite T in H. cbn [bind] in H. apply bind_inv in H as [p1 [E1 H]].
  apply av_quant_kwx in H. unfold avar. rewrite T. cbn [bind]. rewrite E1. cbn [bind].
  assert (X := av_quant_ext t' l' c' p1 q' (kwx_only_trans _ _ _ H K)).
  destruct (av_quant A t' l' c' p1), (av_quant A t' l' c' q'); cbn in *; auto.
Qed.
(** A whole sequence: results are those of separate first calls. *)
Lemma avar_calls_each zs : forall p r q, avar_calls A (avar A) zs p = Ok (r, q) ->
  Forall2 (fun z a => exists p', avar A (fst (fst z)) (snd (fst z)) (snd z) p = Ok (a, p')) zs r.
Proof.
  assert (G : forall zs p p0, (forall t l c, same_outcome (fun x y => fst x = fst y) (avar A t l c p) (avar A t l c p0)) ->
    (exists lv, pz p LVAR = Some lv /\ (lv <= 0)%Z) ->
    forall r q, avar_calls A (avar A) zs p = Ok (r, q) ->
    Forall2 (fun z a => exists p', avar A (fst (fst z)) (snd (fst z)) (snd z) p0 = Ok (a, p')) zs r).
  { clear zs. induction zs as [|[[t l] c] zs IH]; intros p p0 Ho [lv [E L]] r q H; cbn [avar_calls] in H.
    - inversion H. constructor.
    - apply bind_inv in H as [[a q1] [E1 H]]. apply bind_inv in H as [[r1 q2] [E2 H]]. inversion H; subst.
      constructor.
      + cbn [fst snd]. specialize (Ho t l c). rewrite E1 in Ho.
        destruct (avar A t l c p0) as [[a' p']|]; cbn in Ho; [|contradiction]. subst a'. eauto.
      + assert (exists th : num A, #1 /? #3 = Ok th) as [th T].
        { unfold avar in E1. apply bind_inv in E1 as [th [T _]]. eauto. }
        destruct (avar_history t l c p a q1 [] [] q1 E1 eq_refl) as [_ K].
        apply (IH q1 p0) in E2; [assumption| |eapply avar_settled; eassumption].
        intros t' l' c'. specialize (K t' l' c'). specialize (Ho t' l' c').
        destruct (avar A t' l' c' q1), (avar A t' l' c' p), (avar A t' l' c' p0); cbn in *; try contradiction; congruence. }
  intros p r q H. destruct zs as [|[[t l] c] zs]; cbn [avar_calls] in H.
  - inversion H. constructor.
  - apply bind_inv in H as [[a q1] [E1 H]]. apply bind_inv in H as [[r1 q2] [E2 H]]. inversion H; subst.
    constructor; [cbn [fst snd]; eauto|].
    assert (exists th : num A, #1 /? #3 = Ok th) as [th T].
    { unfold avar in E1. apply bind_inv in E1 as [th [T _]]. eauto. }
    destruct (avar_history t l c p a q1 [] [] q1 E1 eq_refl) as [_ K].
    eapply (G zs q1 p); [exact K | eapply avar_settled; eassumption | exact E2].
Qed.

(** * C25 *)
Lemma avar_mode0 t l c p a q : avar A t l c p = Ok (a, q) -> pz q KDV = Some 0%Z ->
  forall t' l', avar A t' l' c p = Ok (a, q).
Proof.
  intros H K t' l'. unfold avar in *. apply bind_inv in H as [th [T H]]. rewrite T. cbn [bind].
  apply bind_inv in H as [p1 [E H]]. rewrite E. cbn [bind].
  assert (F := proj1 (av_quant_kwx _ _ _ _ _ _ H)).
  assert (pz p1 KDV = Some 0%Z) as K1.
  { destruct F as [_ [F _]]. rewrite <- F; [assumption|]. cbn. intuition congruence. }
  unfold av_quant in *. unfold getz in *. rewrite K1 in *. cbn [opt_res bind av_fold Z.eqb] in *. exact H.
Qed.
Lemma avar_mode12 t l c p a q : avar A t l c p = Ok (a, q) -> pz q KDV = Some 1%Z \/ pz q KDV = Some 2%Z ->
  forall l', avar A t l' c p = Ok (a, q).
Proof.
  intros H K l'. unfold avar in *. apply bind_inv in H as [th [T H]]. rewrite T. cbn [bind].
  apply bind_inv in H as [p1 [E H]]. rewrite E. cbn [bind].
  assert (F := proj1 (av_quant_kwx _ _ _ _ _ _ H)).
  assert (X : pz p1 KDV = pz q KDV).
  { destruct F as [_ [F _]]. rewrite <- F; [reflexivity|]. cbn. intuition congruence. }
  rewrite <- X in K.
  unfold av_quant in *. unfold getz in *. destruct K as [K|K]; rewrite K in *;
    cbn [opt_res bind av_fold Z.eqb Pos.eqb] in *; exact H.
Qed.

(** * C21 *)
Lemma av_mode_spec p q m : pz p MDVAR = Some m -> av_mode A p = Ok q ->
  let ws := (20 <=? m)%Z in
  let m1 := if ws then (m - 20)%Z else m in
  let wl := (10 <=? m1)%Z in
  let m2 := if wl then (m1 - 10)%Z else m1 in
  pb q WS = Some ws /\ pb q WL = Some wl /\
  (if (0 <=? m2)%Z && (m2 <=? 3)%Z then pz q KDV = Some m2 /\ pz q KWX = pz p KWX
   else pz q KDV = Some 0%Z /\ exists k, pz p KWX = Some k /\ pz q KWX = Some (Z.max k 2)).
Proof.
  intros M H ws m1 wl m2. unfold av_mode in H. unfold getz at 1 in H. rewrite M in H. cbn [opt_res bind] in H.
  fold ws in H. fold m1 in H. fold wl in H. fold m2 in H.
  destruct ((m2 <? 0)%Z || (3 <? m2)%Z) eqn:B.
  - apply bind_inv in H as [k [E H]]. dsimp_in E. apply pz_getz in E. inversion H; subst q. cbn.
    assert (X : (0 <=? m2)%Z && (m2 <=? 3)%Z = false) by lia. rewrite X. repeat split; eauto.
  - inversion H; subst q. cbn.
    assert (X : (0 <=? m2)%Z && (m2 <=? 3)%Z = true) by lia. rewrite X. repeat split; eauto.
Qed.

(** * C22 *)
Lemma foldM_tables k : (1 <= k <= 7)%Z -> forall p, exists q,
  foldM (fun p kt => let! v := pyget (snd kt) (k - 1)%Z in Ok (setn p (fst kt) v)) (climate_tables A) p = Ok q /\
  same_except climate_keys [] [] p q /\
  map (pn q) climate_keys = map Some (climate_row k).
Proof.
  intros K p.
  assert (k = 1 \/ k = 2 \/ k = 3 \/ k = 4 \/ k = 5 \/ k = 6 \/ k = 7)%Z as D by lia.
  destruct D as [->|[->|[->|[->|[->|[->| ->]]]]]];
    (eexists; split; [cbn; reflexivity | split; [frames | cbn; reflexivity]]).
Qed.
Lemma av_klim_spec p q k : pz p KLIM = Some k -> av_klim A p = Ok q ->
  map (pn q) climate_keys = map Some (climate_row (climate_used k)) /\
  pz q KLIM = Some (climate_used k) /\
  (if (1 <=? k)%Z && (k <=? 7)%Z then pz q KWX = pz p KWX
   else exists x, pz p KWX = Some x /\ pz q KWX = Some (Z.max x 2)) /\
  same_except climate_keys [KLIM; KWX] [] p q.
Proof.
  intros K H. assert (F := av_klim_frame A p q H). split; [|split; [|split; [|exact F]]];
  unfold av_klim in H; rewrite (proj2 (pz_getz A p KLIM k) K) in H; cbn [bind] in H; unfold climate_used;
  (destruct ((k <=? 0)%Z || (7 <? k)%Z) eqn:B;
   [ assert (X : (1 <=? k)%Z && (k <=? 7)%Z = false) by lia; rewrite X;
     apply bind_inv in H as [p1 [E H]]; apply bind_inv in E as [x [Ex E]]; inversion E; subst p1;
     dsimp_in H;
     destruct (foldM_tables 5%Z ltac:(lia) (setz (setz p KLIM 5) KWX (Z.max x 2))) as [q' [E' [F' M]]];
     rewrite E' in H; inversion H; subst q'; destruct F' as [_ [F' _]]
   | assert (X : (1 <=? k)%Z && (k <=? 7)%Z = true) by lia; rewrite X;
     cbn [bind] in H; rewrite (proj2 (pz_getz A p KLIM k) K) in H; cbn [bind] in H;
     destruct (foldM_tables k ltac:(lia) p) as [q' [E' [F' M]]];
     rewrite E' in H; inversion H; subst q'; destruct F' as [_ [F' _]] ]).
  - exact M.
  - exact M.
  - rewrite F' by (intros []). reflexivity.
  - rewrite F' by (intros []). assumption.
  - exists x. split; [apply pz_getz; assumption|]. rewrite F' by (intros []). reflexivity.
  - apply F'. intros [].
Qed.
Lemma av_klim_total p k : pz p KLIM = Some k -> ((1 <= k <= 7)%Z \/ exists x, pz p KWX = Some x) ->
  exists q, av_klim A p = Ok q.
Proof.
  intros K X. unfold av_klim. rewrite (proj2 (pz_getz A p KLIM k) K). cbn [bind].
  destruct ((k <=? 0)%Z || (7 <? k)%Z) eqn:B.
  - destruct X as [X|[x X]]; [exfalso; lia|]. rewrite (proj2 (pz_getz A p KWX x) X). cbn [bind]. dsimp.
    destruct (foldM_tables 5%Z ltac:(lia) (setz (setz p KLIM 5) KWX (Z.max x 2))) as [q [E _]]. eauto.
  - cbn [bind]. rewrite (proj2 (pz_getz A p KLIM k) K). cbn [bind].
    destruct (foldM_tables k ltac:(lia) p) as [q [E _]]. eauto.
Qed.
End PfAvarGen2.
