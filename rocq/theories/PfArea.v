(** lrprop in the continuing area mode: what a later call may depend on (any arithmetic). *)
From Verif Require Import Frame Scripts PfFrame PfLrGen SpecLr.

Section PfArea.
Context (A : arith).
Implicit Types p q s : prop A.
Local Open Scope num_scope.

Lemma adiff_at_ext th d p q :
  agree_on [THA; GME; DLA; WN; DL0; DL1; QK; XHT; AHT; WD1; XD1; DH; AFO] [] [] p q ->
  adiff_at A th d p = adiff_at A th d q.
Proof. intro H. unfold adiff_at. rewr_reads. reflexivity. Qed.
Lemma alos_ext d p q : agree_on [DH; HE0; HE1; ZGR; ZGI; WN; EMD; AED; WIS] [] [] p q ->
  alos A d p = alos A d q.
Proof. intro H. unfold alos, alos_refl, alos_field. rewr_reads. reflexivity. Qed.
Definition los_in : list nkey := [DH; HE0; HE1; ZGR; ZGI; WN; EMD; AED; WIS; DLSA; DLA].
Lemma lr_los_coeffs_ext p q : agree_on los_in [] [] p q -> lr_los_coeffs A p = lr_los_coeffs A q.
Proof.
  intro H. assert (L : forall d, alos A d p = alos A d q) by (intro d; apply alos_ext; agrees).
  unfold lr_los_coeffs, lr_fit. rewr_reads.
  apply so_eq.
  repeat (rewrite ?L; match goal with
    | |- same_outcome _ (bind ?m _) (bind ?m _) => apply so_bind_same; intros ?
    | |- same_outcome _ (let (_, _) := ?m in _) (let (_, _) := ?m in _) => destruct m
    | |- same_outcome _ ?m ?m => apply so_refl; reflexivity
    | |- same_outcome _ (bind _ _) (bind _ _) => apply so_bind with (P := eq); [|intros ? ? ->]
    | |- same_outcome _ (if ?b then _ else _) (if ?b then _ else _) => destruct b
    end; cbn beta).
Qed.
Lemma ascat_h0_ext d th r1 r2 p q : agree_on [AD; RR; ETQ; H0S] [] [] p q ->
  ascat_h0 A d th r1 r2 p = ascat_h0 A d th r1 r2 q.
Proof. intro H. unfold ascat_h0. rewr_reads. reflexivity. Qed.

Lemma ag_setn' nk zk bk p q k v : agree_on nk zk bk p q -> agree_on nk zk bk (setn p k v) (setn q k v).
Proof.
  intros [H1 [H2 H3]]. repeat split; auto. intros j I. cbn. destruct (nkey_eqb k j); auto.
Qed.

Definition ascat_in : list nkey :=
  [H0S; ASCAT1; THE0; THE1; GME; WN; HE0; HE1; AD; RR; ETQ; THA; ENS].
Lemma ascat_rel d p q nk : subn ascat_in nk = true -> agree_on nk [] [] p q ->
  same_outcome (agree_on nk [] []) (ascat A d p) (ascat A d q).
Proof.
  intros S H0. assert (H : agree_on ascat_in [] [] p q).
  { eapply ag_weaken; [|exact H0]. rewrite S. reflexivity. }
  unfold ascat. rewr_reads. apply so_bind_same. intro h0s.
  apply so_bind with (P := fun x y => fst x = fst y /\ agree_on nk [] [] (snd x) (snd y)).
  - destruct (h0s >? #15).
    + split; [reflexivity | assumption].
    + do 6 (apply so_bind_same; intros ?).
      set (r1 := _ * a3). set (r2 := _ * a4).
      destruct ((r1 <? _) && (r2 <? _)).
      * rewrite (ascat_h0_ext _ _ _ _ (setn p ASCAT1 #1001) (setn q ASCAT1 #1001))
          by (apply ag_setn; cbn [filter negb nkey_eqb nkey_id Pos.eqb]; agrees).
        apply so_bind_same. intros h0. dsimp. cbn [same_outcome fst snd]. split; [reflexivity|].
        destruct (negb _); repeat apply ag_setn'; assumption.
      * rewrite (ascat_h0_ext _ _ _ _ p q) by agrees.
        apply so_bind_same. intros h0. rewr_reads. apply so_bind_same. intros a5. cbn [same_outcome fst snd].
        split; [reflexivity|]. destruct (negb _); repeat apply ag_setn'; assumption.
  - intros [h0 p1] [h0' q1] [E H1]. cbn [fst snd] in *. subst h0'.
    assert (H' : agree_on ascat_in [] [] p1 q1).
    { eapply ag_weaken; [|exact H1]. rewrite S. reflexivity. }
    rewr_reads. do 9 (apply so_bind_same; intros ?). cbn [same_outcome].
    apply ag_setn'. assumption.
Qed.

Definition scat_in : list nkey :=
  [DL0; DL1; HE0; HE1; ENS; DLA; EMD; AED; DLSA; XAE; WN; THE0; THE1; GME; THA; ASCAT1].
Definition scat_out : list nkey := [AD; RR; ETQ; H0S; EMS; DX; AES] ++ scat_in.
Lemma lr_scat_setup_rel p q : agree_on scat_in [] [] p q ->
  same_outcome (agree_on scat_out [] [WSCAT]) (lr_scat_setup A p) (lr_scat_setup A q).
Proof.
  intro H. unfold lr_scat_setup. rewr_reads.
  do 4 (apply so_bind_same; intros ?). apply so_bind_same; intros rr.
  apply so_bind_same; intros [ad rr'].
  dsimp. rewr_reads. apply so_bind_same; intros ens. dsimp. rewr_reads. apply so_bind_same; intros dla.
  eapply so_bind.
  { apply (ascat_rel _ _ _ ([AD; RR; ETQ; H0S] ++ scat_in)); [reflexivity|].
    agrees. }
  intros p1 q1 H1. rewr_reads. apply so_bind_same; intros a6.
  eapply so_bind.
  { apply (ascat_rel _ _ _ ([AD; RR; ETQ; H0S] ++ scat_in)); [reflexivity | exact H1]. }
  intros p2 q2 H2. rewr_reads. apply so_bind_same; intros a5.
  apply so_bind_same; intros emd. apply so_bind_same; intros aed.
  apply so_bind with (P := agree_on scat_out [] []).
  - destruct (a5 <? #1000).
    + apply so_bind_same; intros ems. dsimp. rewr_reads.
      do 5 (apply so_bind_same; intros ?). cbn [same_outcome].
      apply ag_setn, ag_setn, ag_setn. eapply ag_weaken; [|exact H2]. reflexivity.
    + cbn [same_outcome]. apply ag_setn, ag_setn, ag_setn. eapply ag_weaken; [|exact H2]. reflexivity.
  - intros p3 q3 H3. cbn [same_outcome]. apply ag_setb. eapply ag_weaken; [|exact H3]. reflexivity.
Qed.

(** States reachable from the state [s] right after the set-up by calls in the continuing mode. *)
Record Inv s q : Prop := {
  inv_frame : same_except lr_run_keys [KWX; MDP] [WLOS; WSCAT] s q;
  inv_scat0 : getb q WSCAT = Ok false -> getn q ASCAT1 = getn s ASCAT1;
  inv_scat1 : getb q WSCAT = Ok true ->
              exists s', lr_scat_setup A s = Ok s' /\
                getn q DX = getn s' DX /\ getn q AES = getn s' AES /\ getn q EMS = getn s' EMS }.

Lemma Inv_refl s : getb s WSCAT = Ok false -> Inv s s.
Proof. intro H. split; [apply fr_refl | reflexivity | congruence]. Qed.
Lemma Inv_dist s q d q' : Inv s q -> lr_dist A d q = Ok q' -> Inv s q'.
Proof.
  intros [F I0 I1] H. apply lr_dist_frame in H.
  split.
  - eapply fr_trans; [exact F|]. eapply fr_weaken; [|exact H]. reflexivity.
  - rewrite (fr_getb _ _ _ _ _ WSCAT H eq_refl), (fr_getn _ _ _ _ _ ASCAT1 H eq_refl). assumption.
  - rewrite (fr_getb _ _ _ _ _ WSCAT H eq_refl), (fr_getn _ _ _ _ _ DX H eq_refl),
      (fr_getn _ _ _ _ _ AES H eq_refl), (fr_getn _ _ _ _ _ EMS H eq_refl). assumption.
Qed.
Lemma Inv_los s q q' : Inv s q -> lr_los A q = Ok q' -> Inv s q'.
Proof.
  intros [F I0 I1] H. apply lr_los_frame in H.
  split.
  - eapply fr_trans; [exact F|]. eapply fr_weaken; [|exact H]. reflexivity.
  - rewrite (fr_getb _ _ _ _ _ WSCAT H eq_refl), (fr_getn _ _ _ _ _ ASCAT1 H eq_refl). assumption.
  - rewrite (fr_getb _ _ _ _ _ WSCAT H eq_refl), (fr_getn _ _ _ _ _ DX H eq_refl),
      (fr_getn _ _ _ _ _ AES H eq_refl), (fr_getn _ _ _ _ _ EMS H eq_refl). assumption.
Qed.
Lemma Inv_aref s q v : Inv s q -> Inv s (setn q AREF v).
Proof.
  intros [F I0 I1]. split.
  - apply fr_setn; [reflexivity | assumption].
  - intro H. dsimp_in H. dsimp. auto.
  - intro H. dsimp_in H. dsimp. auto.
Qed.
(** The set-up of the scatter coefficients in a reachable state. *)
Lemma Inv_setup s q q' : Inv s q -> getb q WSCAT = Ok false -> lr_scat_setup A q = Ok q' ->
  exists s', lr_scat_setup A s = Ok s' /\ getb q' WSCAT = Ok true /\
    getn q' DX = getn s' DX /\ getn q' AES = getn s' AES /\ getn q' EMS = getn s' EMS.
Proof.
  intros [F I0 I1] W H.
  assert (G : agree_on scat_in [] [] q s).
  { split; [|split; intros k []]. intros k I. destruct F as [F _].
    destruct (nkey_eqb k ASCAT1) eqn:E.
    - apply nkey_eqb_eq in E. subst k. specialize (I0 W). unfold getn in I0.
      destruct (pn q ASCAT1), (pn s ASCAT1); cbn in I0; congruence.
    - apply F. intro J. apply memn_In in I. apply memn_In in J.
      destruct k; cbn in I, J, E; congruence. }
  pose proof (lr_scat_setup_rel q s G) as R. rewrite H in R.
  destruct (lr_scat_setup A s) as [s'|]; cbn [same_outcome] in R; [|contradiction].
  exists s'. split; [reflexivity|].
  assert (W' : getb q' WSCAT = Ok true).
  { clear -H. unfold lr_scat_setup in H.
    repeat (apply bind_inv in H; destruct H as [? [_ H]]).
    match type of H with bind ?m _ = _ => idtac | _ => idtac end.
    repeat match type of H with
    | (let (_, _) := ?x in _) = _ => destruct x
    | bind _ _ = Ok _ => apply bind_inv in H; destruct H as [? [_ H]]
    | Ok _ = Ok _ => inversion H; subst q'
    end. dsimp. reflexivity. }
  split; [assumption|].
  repeat split; eapply ag_getn; try exact R; reflexivity.
Qed.
Lemma Inv_scat s q q' : Inv s q -> lr_scat A q = Ok q' -> Inv s q'.
Proof.
  intros I H. assert (F := lr_scat_frame A q q' H). unfold lr_scat in H.
  apply bind_inv in H as [dist [Ed H]]. apply bind_inv in H as [dlsa [Es H]].
  destruct ((dist <=? #0) || (dist >=? dlsa)); [|inversion H; subst; assumption].
  apply bind_inv in H as [w [Ew H]]. apply bind_inv in H as [q1 [E1 H]].
  assert (exists v, q' = setn q1 AREF v) as [v ->].
  { apply bind_inv in H as [dx [_ H]]. destruct (dist >? dx);
      apply bind_inv in H as [? [_ H]]; apply bind_inv in H as [? [_ H]]; inversion H; eauto. }
  destruct w.
  - inversion E1; subst q1. apply Inv_aref. assumption.
  - destruct (Inv_setup s q q1 I Ew E1) as [s' [Hs [W [X1 [X2 X3]]]]].
    apply Inv_aref. destruct I as [If I0 I1]. split.
    + apply lr_scat_setup_frame in E1. eapply fr_trans; [exact If|]. eapply fr_weaken; [|exact E1]. reflexivity.
    + congruence.
    + intros _. exists s'. auto.
Qed.
Lemma Inv_lrprop s q d q' : Inv s q -> pz q MDP = Some 0%Z -> lrprop A d q = Ok q' -> Inv s q' /\ pz q' MDP = Some 0%Z.
Proof.
  intros I M H. split; [|exact (proj1 (lrprop_area A d q q' 0%Z H M (Z.le_refl 0)))].
  destruct (lrprop_stages A d q q' H) as (th & m & p1 & p2 & p3 & p4 & a & _ & M' & S & D & L & C & _ & ->).
  rewrite M in M'. inversion M'; subst m. destruct S as [[_ ->]|[S _]]; [|congruence].
  apply Inv_aref. eapply Inv_scat; [|exact C]. eapply Inv_los; [|exact L]. eapply Inv_dist; eassumption.
Qed.

Lemma lr_calls_inv s ds : forall q q', Inv s q -> pz q MDP = Some 0%Z -> lr_calls A ds q = Ok q' ->
  Inv s q' /\ pz q' MDP = Some 0%Z.
Proof.
  induction ds as [|d ds IH]; intros q q' I M H; cbn [lr_calls] in H.
  - inversion H; subst. auto.
  - apply bind_inv in H as [q1 [E H]]. destruct (Inv_lrprop s q d q1 I M E) as [I1 M1]. eapply IH; eassumption.
Qed.
Lemma lr_setup_flags th p s : lr_setup A th p = Ok s -> getb s WSCAT = Ok false /\ getb s WLOS = Ok false.
Proof.
  intro H. unfold lr_setup in H. apply bind_inv in H as [q1 [E1 H]]. apply bind_inv in H as [q2 [E2 H]].
  apply lr_checks_frame in E2. apply lr_diff_frame in H.
  assert (X : getb q1 WSCAT = Ok false /\ getb q1 WLOS = Ok false).
  { unfold lr_geom in E1. repeat (apply bind_inv in E1; destruct E1 as [? [_ E1]]). inversion E1.
    split; dsimp; reflexivity. }
  rewrite (fr_getb _ _ _ _ _ WSCAT H eq_refl), (fr_getb _ _ _ _ _ WSCAT E2 eq_refl),
    (fr_getb _ _ _ _ _ WLOS H eq_refl), (fr_getb _ _ _ _ _ WLOS E2 eq_refl). assumption.
Qed.

Lemma lr_dist_total d q k : getz q MDP = Ok 0%Z \/ (exists m, getz q MDP = Ok m /\ (0 <= m)%Z) ->
  getz q KWX = Ok k -> (exists dm, getn q DMIN = Ok dm) -> exists q', lr_dist A d q = Ok q'.
Proof.
  intros M K [dm D]. assert (exists m, getz q MDP = Ok m /\ (0 <= m)%Z) as [m [Em Lm]].
  { destruct M as [M|M]; [exists 0%Z; split; [assumption | lia] | assumption]. }
  unfold lr_dist. rewrite Em. cbn [bind]. replace (0 <=? m)%Z with true by lia.
  dsimp. destruct (d >? #0).
  - dsimp. rewrite K. cbn [bind]. dsimp. rewrite D. cbn [bind]. eauto.
  - eauto.
Qed.

(** The reference attenuation of a call at distance d made in the state [s] right after the set-up,
    without history: what [lr_los] and [lr_scat] put into aref. *)
Lemma scat_value s q d q' dlsa :
  Inv s q -> getn q DIST = Ok d -> getn s DLSA = Ok dlsa -> (d >=? dlsa) = true -> lr_scat A q = Ok q' ->
  exists s' dx v, lr_scat_setup A s = Ok s' /\ getn s' DX = Ok dx /\
    (if d >? dx then exists aes ems, getn s' AES = Ok aes /\ getn s' EMS = Ok ems /\ v = aes + ems * d
     else exists aed emd, getn s AED = Ok aed /\ getn s EMD = Ok emd /\ v = aed + emd * d) /\
    getn q' AREF = Ok v.
Proof.
  intros I Ed Es G H. unfold lr_scat in H. rewrite Ed in H. cbn [bind] in H.
  assert (Fr := inv_frame s q I).
  rewrite (fr_getn _ _ _ _ _ DLSA Fr eq_refl), Es in H. cbn [bind] in H.
  rewrite G, orb_true_r in H.
  apply bind_inv in H as [w [Ew H]]. apply bind_inv in H as [q1 [E1 H]].
  assert (X : exists s', lr_scat_setup A s = Ok s' /\
    getn q1 DX = getn s' DX /\ getn q1 AES = getn s' AES /\ getn q1 EMS = getn s' EMS /\
    getn q1 AED = getn s AED /\ getn q1 EMD = getn s EMD).
  { destruct w.
    - inversion E1; subst q1. destruct (inv_scat1 s q I Ew) as [s' [Hs [X1 [X2 X3]]]].
      exists s'. repeat split; auto; eapply fr_getn; try exact Fr; reflexivity.
    - destruct (Inv_setup s q q1 I Ew E1) as [s' [Hs [W [X1 [X2 X3]]]]].
      apply lr_scat_setup_frame in E1.
      exists s'. repeat split; auto; (etransitivity; eapply fr_getn; [exact E1 | reflexivity | exact Fr | reflexivity]). }
  destruct X as [s' [Hs [X1 [X2 [X3 [X4 X5]]]]]].
  apply bind_inv in H as [dx [Edx H]]. exists s', dx.
  rewrite X1 in Edx.
  destruct (d >? dx) eqn:Gx.
  - apply bind_inv in H as [aes [Ea H]]. apply bind_inv in H as [ems [Ee H]]. inversion H; subst q'; clear H.
    rewrite X2 in Ea. rewrite X3 in Ee.
    eexists. split; [eassumption|]. split; [eassumption|]. split; [eauto|]. dsimp. reflexivity.
  - apply bind_inv in H as [aed [Ea H]]. apply bind_inv in H as [emd [Ee H]]. inversion H; subst q'; clear H.
    rewrite X4 in Ea. rewrite X5 in Ee.
    eexists. split; [eassumption|]. split; [eassumption|]. split; [eauto|]. dsimp. reflexivity.
Qed.
(** The scatter part of a call without history succeeds when that of one with history did. *)
Lemma scat_total s q d dlsa s' :
  Inv s q -> getb q WSCAT = Ok false -> getn q DIST = Ok d -> getn s DLSA = Ok dlsa -> (d >=? dlsa) = true ->
  lr_scat_setup A s = Ok s' ->
  (exists dx, getn s' DX = Ok dx /\
     (if d >? dx then (exists aes, getn s' AES = Ok aes) /\ (exists ems, getn s' EMS = Ok ems)
      else (exists aed, getn s AED = Ok aed) /\ (exists emd, getn s EMD = Ok emd))) ->
  exists q', lr_scat A q = Ok q'.
Proof.
  intros I W Ed Es G Hs [dx [Edx X]].
  assert (Fr := inv_frame s q I).
  assert (Ag : agree_on scat_in [] [] s q).
  { split; [|split; intros k []]. intros k J. destruct Fr as [F _].
    destruct (nkey_eqb k ASCAT1) eqn:E.
    - apply nkey_eqb_eq in E. subst k. pose proof (inv_scat0 s q I W) as I0. unfold getn in I0.
      destruct (pn q ASCAT1), (pn s ASCAT1); cbn in I0; congruence.
    - symmetry. apply F. intro J'. apply memn_In in J. apply memn_In in J'.
      destruct k; cbn in J, J', E; congruence. }
  pose proof (lr_scat_setup_rel s q Ag) as R. rewrite Hs in R.
  destruct (lr_scat_setup A q) as [q1|] eqn:Eq1; cbn [same_outcome] in R; [|contradiction].
  unfold lr_scat. rewrite Ed. cbn [bind]. rewrite (fr_getn _ _ _ _ _ DLSA Fr eq_refl), Es. cbn [bind].
  rewrite G, orb_true_r, W. cbn [bind]. rewrite Eq1. cbn [bind].
  rewrite <- (ag_getn _ _ _ _ _ DX R eq_refl), Edx. cbn [bind].
  assert (F1 := lr_scat_setup_frame A q q1 Eq1).
  destruct (d >? dx).
  - destruct X as [[aes Xa] [ems Xe]].
    rewrite <- (ag_getn _ _ _ _ _ AES R eq_refl), Xa. cbn [bind].
    rewrite <- (ag_getn _ _ _ _ _ EMS R eq_refl), Xe. cbn [bind]. eauto.
  - destruct X as [[aed Xa] [emd Xe]].
    rewrite (fr_getn _ _ _ _ _ AED F1 eq_refl), (fr_getn _ _ _ _ _ AED Fr eq_refl), Xa. cbn [bind].
    rewrite (fr_getn _ _ _ _ _ EMD F1 eq_refl), (fr_getn _ _ _ _ _ EMD Fr eq_refl), Xe. cbn [bind]. eauto.
Qed.

Lemma lr_setup_kwx th p s : lr_setup A th p = Ok s -> exists k, getz s KWX = Ok k.
Proof.
  intro H. unfold lr_setup in H. apply bind_inv in H as [q1 [E1 H]]. apply bind_inv in H as [q2 [E2 H]].
  apply lr_diff_frame in H. rewrite (fr_getz _ _ _ _ _ KWX H eq_refl).
  unfold lr_checks in E2. repeat (apply bind_inv in E2; destruct E2 as [? [_ E2]]).
  inversion E2. eexists. dsimp. reflexivity.
Qed.
Lemma lr_dist_dist d q q' m : getz q MDP = Ok m -> (0 <= m)%Z -> lr_dist A d q = Ok q' -> getn q' DIST = Ok d.
Proof.
  intros M L H. unfold lr_dist in H. rewrite M in H. cbn [bind] in H.
  replace (0 <=? m)%Z with true in H by lia. dsimp_in H.
  destruct (d >? #0).
  - repeat (apply bind_inv in H; destruct H as [? [_ H]]). inversion H. dsimp. reflexivity.
  - inversion H. dsimp. reflexivity.
Qed.
Lemma lr_dist_dmin d q q' m : getz q MDP = Ok m -> (0 <= m)%Z -> lr_dist A d q = Ok q' ->
  (d >? #0) = true -> exists dm, getn q DMIN = Ok dm.
Proof.
  intros M L H G. unfold lr_dist in H. rewrite M in H. cbn [bind] in H.
  replace (0 <=? m)%Z with true in H by lia. dsimp_in H. rewrite G in H.
  apply bind_inv in H as [? [_ H]]. dsimp_in H. apply bind_inv in H as [dm [E _]]. eauto.
Qed.
Lemma lr_dist_total' d q : (exists m, getz q MDP = Ok m /\ (0 <= m)%Z) -> (exists k, getz q KWX = Ok k) ->
  ((d >? #0) = true -> exists dm, getn q DMIN = Ok dm) -> exists q', lr_dist A d q = Ok q'.
Proof.
  intros [m [M L]] [k K] D. unfold lr_dist. rewrite M. cbn [bind]. replace (0 <=? m)%Z with true by lia.
  dsimp. destruct (d >? #0); [|eauto].
  destruct (D eq_refl) as [dm E]. dsimp. rewrite K. cbn [bind]. dsimp. rewrite E. cbn [bind]. eauto.
Qed.
Lemma lr_los_beyond q d dlsa : getn q DIST = Ok d -> getn q DLSA = Ok dlsa -> (d <? dlsa) = false ->
  lr_los A q = Ok q.
Proof. intros E1 E2 G. unfold lr_los. rewrite E1, E2. cbn [bind]. rewrite G. reflexivity. Qed.
Lemma lr_scat_within q d dlsa : getn q DIST = Ok d -> getn q DLSA = Ok dlsa -> (d <=? #0) = false ->
  (d >=? dlsa) = false -> lr_scat A q = Ok q.
Proof. intros E1 E2 G1 G2. unfold lr_scat. rewrite E1, E2. cbn [bind]. rewrite G1, G2. reflexivity. Qed.
Lemma lr_los_within q d dlsa q' : getn q DIST = Ok d -> getn q DLSA = Ok dlsa -> (d <? dlsa) = true ->
  (d >? #0) = true -> getb q WLOS = Ok false -> lr_los A q = Ok q' ->
  exists ak1 ak2 ael l, lr_los_coeffs A q = Ok (ak1, ak2, ael) /\ np_log d = Ok l /\
    getn q' AREF = Ok (ael + ak1 * d + ak2 * l).
Proof.
  intros E1 E2 G P W H. unfold lr_los in H. rewrite E1, E2 in H. cbn [bind] in H. rewrite G, W in H.
  cbn [bind] in H. apply bind_inv in H as [[[ak1 ak2] ael] [Ec H]]. rewrite P in H.
  apply bind_inv in H as [l [El H]]. inversion H. exists ak1, ak2, ael, l. repeat split; try assumption.
Qed.
Lemma lr_los_within_total q d dlsa c l : getn q DIST = Ok d -> getn q DLSA = Ok dlsa -> (d <? dlsa) = true ->
  (d >? #0) = true -> getb q WLOS = Ok false -> lr_los_coeffs A q = Ok c -> np_log d = Ok l ->
  exists q', lr_los A q = Ok q'.
Proof.
  intros E1 E2 G P W Hc Hl. unfold lr_los. rewrite E1, E2. cbn [bind]. rewrite G, W. cbn [bind].
  rewrite Hc. destruct c as [[ak1 ak2] ael]. cbn [bind]. rewrite P, Hl. cbn [bind]. eauto.
Qed.

(** One call in a reachable state, at a distance beyond the smooth-earth horizon. *)
Lemma call_beyond s q d q' dlsa m : Inv s q -> getz q MDP = Ok m -> (0 <= m)%Z ->
  getn s DLSA = Ok dlsa -> (d <? dlsa) = false -> (d >=? dlsa) = true ->
  forall p1 p2 p3 a, lr_dist A d q = Ok p1 -> lr_los A p1 = Ok p2 -> lr_scat A p2 = Ok p3 ->
  getn p3 AREF = Ok a -> q' = setn p3 AREF (pymax a #0) ->
  exists s' dx v, lr_scat_setup A s = Ok s' /\ getn s' DX = Ok dx /\
    (if d >? dx then exists aes ems, getn s' AES = Ok aes /\ getn s' EMS = Ok ems /\ v = aes + ems * d
     else exists aed emd, getn s AED = Ok aed /\ getn s EMD = Ok emd /\ v = aed + emd * d) /\
    getn q' AREF = Ok (pymax v #0).
Proof.
  intros I M L Es G1 G2 p1 p2 p3 a D Lo Sc Ea ->.
  assert (I1 := Inv_dist s q d p1 I D).
  assert (D1 := lr_dist_dist d q p1 m M L D).
  assert (S1 : getn p1 DLSA = Ok dlsa) by (rewrite (fr_getn _ _ _ _ _ DLSA (inv_frame _ _ I1) eq_refl); assumption).
  rewrite (lr_los_beyond p1 d dlsa D1 S1 G1) in Lo. inversion Lo; subst p2.
  destruct (scat_value s p1 d p3 dlsa I1 D1 Es G2 Sc) as (s' & dx & v & H1 & H2 & H3 & H4).
  exists s', dx, v. repeat split; try assumption. dsimp. rewrite Ea in H4. inversion H4. reflexivity.
Qed.

(** A call without history succeeds where one with history does, with the same value. *)
Lemma call_fresh_beyond s q d q' dlsa m m' th p0 :
  #1 /? #3 = Ok th -> getz p0 MDP = Ok m' -> m' <> 0%Z -> lr_setup A th p0 = Ok s -> (0 <= m')%Z ->
  Inv s q -> getz q MDP = Ok m -> (0 <= m)%Z ->
  getn s DLSA = Ok dlsa -> beyond dlsa d ->
  forall p1 p2 p3 a, lr_dist A d q = Ok p1 -> lr_los A p1 = Ok p2 -> lr_scat A p2 = Ok p3 ->
  getn p3 AREF = Ok a -> q' = setn p3 AREF (pymax a #0) ->
  exists r, lrprop A d p0 = Ok r /\ getn r AREF = getn q' AREF.
Proof.
  intros T M' N' St L' I M L Es [G1 G2] p1 p2 p3 a D Lo Sc Ea Eq.
  destruct (call_beyond s q d q' dlsa m I M L Es G1 G2 p1 p2 p3 a D Lo Sc Ea Eq)
    as (s' & dx & v & H1 & H2 & H3 & H4).
  destruct (lr_setup_flags th p0 s St) as [Ws Wl].
  assert (Ms : getz s MDP = Ok m').
  { apply lr_setup_frame in St. rewrite (fr_getz _ _ _ _ _ MDP St eq_refl). assumption. }
  assert (Is := Inv_refl s Ws).
  destruct (lr_dist_total' d s) as [r1 D1].
  { exists m'. auto. } { eapply lr_setup_kwx; eassumption. }
  { intro P. destruct (lr_dist_dmin d q p1 m M L D P) as [dm E].
    rewrite (fr_getn _ _ _ _ _ DMIN (inv_frame _ _ I) eq_refl) in E. eauto. }
  assert (I1 := Inv_dist s s d r1 Is D1).
  assert (E1 := lr_dist_dist d s r1 m' Ms L' D1).
  assert (S1 : getn r1 DLSA = Ok dlsa) by (rewrite (fr_getn _ _ _ _ _ DLSA (inv_frame _ _ I1) eq_refl); assumption).
  assert (W1 : getb r1 WSCAT = Ok false).
  { apply lr_dist_frame in D1. rewrite (fr_getb _ _ _ _ _ WSCAT D1 eq_refl). assumption. }
  destruct (scat_total s r1 d dlsa s' I1 W1 E1 Es G2 H1) as [r2 C2].
  { exists dx. split; [assumption|].
    destruct (d >? dx); destruct H3 as (? & ? & ? & ? & _); split; eauto. }
  destruct (scat_value s r1 d r2 dlsa I1 E1 Es G2 C2) as (s'' & dx' & v' & K1 & K2 & K3 & K4).
  rewrite H1 in K1. inversion K1; subst s''. rewrite H2 in K2. inversion K2; subst dx'.
  assert (v' = v) as ->.
  { destruct (d >? dx); destruct H3 as (? & ? & Ha & Hb & ->); destruct K3 as (? & ? & Ka & Kb & ->); congruence. }
  exists (setn r2 AREF (pymax v #0)). split.
  - unfold lrprop. rewrite T. cbn [bind]. rewrite M'. cbn [bind].
    replace (m' =? 0)%Z with false by (symmetry; apply Z.eqb_neq; assumption). cbn [negb].
    rewrite St. cbn [bind]. rewrite D1. cbn [bind].
    rewrite (lr_los_beyond r1 d dlsa E1 S1 G1). cbn [bind]. rewrite C2. cbn [bind]. rewrite K4. reflexivity.
  - rewrite H4. dsimp. reflexivity.
Qed.
Lemma call_fresh_within s q d q' dlsa m m' th p0 :
  #1 /? #3 = Ok th -> getz p0 MDP = Ok m' -> m' <> 0%Z -> lr_setup A th p0 = Ok s -> (0 <= m')%Z ->
  Inv s q -> getz q MDP = Ok m -> (0 <= m)%Z -> getb q WLOS = Ok false ->
  getn s DLSA = Ok dlsa -> within dlsa d ->
  forall p1 p2 p3 a, lr_dist A d q = Ok p1 -> lr_los A p1 = Ok p2 -> lr_scat A p2 = Ok p3 ->
  getn p3 AREF = Ok a -> q' = setn p3 AREF (pymax a #0) ->
  exists r, lrprop A d p0 = Ok r /\ getn r AREF = getn q' AREF.
Proof.
  intros T M' N' St L' I M L W Es (P & P' & G1 & G2) p1 p2 p3 a D Lo Sc Ea ->.
  destruct (lr_setup_flags th p0 s St) as [Ws Wl].
  assert (Ms : getz s MDP = Ok m').
  { apply lr_setup_frame in St. rewrite (fr_getz _ _ _ _ _ MDP St eq_refl). assumption. }
  assert (Is := Inv_refl s Ws).
  assert (I1 := Inv_dist s q d p1 I D).
  assert (D1 := lr_dist_dist d q p1 m M L D).
  assert (S1 : getn p1 DLSA = Ok dlsa) by (rewrite (fr_getn _ _ _ _ _ DLSA (inv_frame _ _ I1) eq_refl); assumption).
  assert (W1 : getb p1 WLOS = Ok false).
  { assert (F := D). apply lr_dist_frame in F. rewrite (fr_getb _ _ _ _ _ WLOS F eq_refl). assumption. }
  destruct (lr_los_within p1 d dlsa p2 D1 S1 G1 P W1 Lo) as (ak1 & ak2 & ael & l & C & Hl & Ar).
  assert (I2 := Inv_los s p1 p2 I1 Lo).
  assert (F2 := lr_los_frame A p1 p2 Lo).
  rewrite (lr_scat_within p2 d dlsa) in Sc;
    [| rewrite (fr_getn _ _ _ _ _ DIST F2 eq_refl); assumption
     | rewrite (fr_getn _ _ _ _ _ DLSA F2 eq_refl); assumption | assumption | assumption].
  inversion Sc; subst p3. rewrite Ar in Ea. inversion Ea; subst a.
  destruct (lr_dist_total' d s) as [r1 R1].
  { exists m'. auto. } { eapply lr_setup_kwx; eassumption. }
  { intro P0. destruct (lr_dist_dmin d q p1 m M L D P0) as [dm E].
    rewrite (fr_getn _ _ _ _ _ DMIN (inv_frame _ _ I) eq_refl) in E. eauto. }
  assert (J1 := Inv_dist s s d r1 Is R1).
  assert (E1 := lr_dist_dist d s r1 m' Ms L' R1).
  assert (T1 : getn r1 DLSA = Ok dlsa) by (rewrite (fr_getn _ _ _ _ _ DLSA (inv_frame _ _ J1) eq_refl); assumption).
  assert (X1 : getb r1 WLOS = Ok false).
  { assert (F := R1). apply lr_dist_frame in F. rewrite (fr_getb _ _ _ _ _ WLOS F eq_refl). assumption. }
  assert (C1 : lr_los_coeffs A r1 = Ok (ak1, ak2, ael)).
  { rewrite <- C. apply lr_los_coeffs_ext.
    destruct (inv_frame _ _ J1) as [Fa _]. destruct (inv_frame _ _ I1) as [Fb _].
    split; [|split; intros k []]. intros k J. rewrite Fa, Fb; [reflexivity| |];
      intro J'; apply memn_In in J; apply memn_In in J'; destruct k; cbn in J, J'; congruence. }
  destruct (lr_los_within_total r1 d dlsa _ l E1 T1 G1 P X1 C1 Hl) as [r2 R2].
  destruct (lr_los_within r1 d dlsa r2 E1 T1 G1 P X1 R2) as (b1 & b2 & bl & l' & C' & Hl' & Ar').
  rewrite C1 in C'. inversion C'; subst b1 b2 bl. rewrite Hl in Hl'. inversion Hl'; subst l'.
  assert (F3 := lr_los_frame A r1 r2 R2).
  exists (setn r2 AREF (pymax (ael + ak1 * d + ak2 * l) #0)). split.
  - unfold lrprop. rewrite T. cbn [bind]. rewrite M'. cbn [bind].
    replace (m' =? 0)%Z with false by (symmetry; apply Z.eqb_neq; assumption). cbn [negb].
    rewrite St. cbn [bind]. rewrite R1. cbn [bind]. rewrite R2. cbn [bind].
    rewrite (lr_scat_within r2 d dlsa);
      [| rewrite (fr_getn _ _ _ _ _ DIST F3 eq_refl); assumption
       | rewrite (fr_getn _ _ _ _ _ DLSA F3 eq_refl); assumption | assumption | assumption].
    cbn [bind]. rewrite Ar'. reflexivity.
  - dsimp. reflexivity.
Qed.

Lemma call_wlos s q d q' dlsa : Inv s q -> pz q MDP = Some 0%Z -> getn s DLSA = Ok dlsa -> (d <? dlsa) = false ->
  getb q WLOS = Ok false -> lrprop A d q = Ok q' -> getb q' WLOS = Ok false.
Proof.
  intros I M Es G W H.
  destruct (lrprop_stages A d q q' H) as (th & m & p1 & p2 & p3 & p4 & a & _ & M' & S & D & L & C & _ & ->).
  rewrite M in M'. inversion M'; subst m. destruct S as [[_ ->]|[S _]]; [|congruence].
  assert (I1 := Inv_dist s q d p2 I D).
  assert (M0 : getz q MDP = Ok 0%Z) by (unfold getz; rewrite M; reflexivity).
  assert (D1 := lr_dist_dist d q p2 0%Z M0 (Z.le_refl 0) D).
  assert (S1 : getn p2 DLSA = Ok dlsa) by (rewrite (fr_getn _ _ _ _ _ DLSA (inv_frame _ _ I1) eq_refl); assumption).
  rewrite (lr_los_beyond p2 d dlsa D1 S1 G) in L. inversion L; subst p3.
  apply lr_scat_frame in C. apply lr_dist_frame in D. dsimp.
  rewrite (fr_getb _ _ _ _ _ WLOS C eq_refl), (fr_getb _ _ _ _ _ WLOS D eq_refl). assumption.
Qed.
Lemma calls_wlos s dlsa : forall ds q q', Inv s q -> pz q MDP = Some 0%Z -> getn s DLSA = Ok dlsa ->
  Forall (fun d => (d <? dlsa) = false) ds -> getb q WLOS = Ok false -> lr_calls A ds q = Ok q' ->
  getb q' WLOS = Ok false.
Proof.
  induction ds as [|d ds IH]; intros q q' I M Es Fa W H; cbn [lr_calls] in H.
  - inversion H; subst. assumption.
  - inversion Fa; subst. apply bind_inv in H as [q1 [E H]].
    destruct (Inv_lrprop s q d q1 I M E) as [I1 M1].
    eapply IH; try eassumption. exact (call_wlos s q d q1 dlsa I M Es H2 W E).
Qed.

(** After the first call of the area mode. *)
Lemma first_call d p q m : pz p MDP = Some m -> (0 < m)%Z -> lrprop A d p = Ok q ->
  exists th s, #1 /? #3 = Ok th /\ lr_setup A th p = Ok s /\ Inv s q /\ pz q MDP = Some 0%Z /\
    forall dlsa, getn s DLSA = Ok dlsa -> (d <? dlsa) = false -> getb q WLOS = Ok false.
Proof.
  intros M L H. assert (M1 := proj1 (lrprop_area A d p q m H M ltac:(lia))).
  destruct (lrprop_stages A d p q H) as (th & m' & p1 & p2 & p3 & p4 & a & T & M' & S & D & Lo & C & _ & ->).
  rewrite M in M'. inversion M'; subst m'. destruct S as [[? _]|[_ S]]; [lia|].
  exists th, p1. destruct (lr_setup_flags th p p1 S) as [Ws Wl].
  assert (I := Inv_refl p1 Ws).
  assert (I2 := Inv_dist p1 p1 d p2 I D).
  split; [assumption|]. split; [assumption|]. split; [|split; [assumption|]].
  - apply Inv_aref. eapply Inv_scat; [|exact C]. eapply Inv_los; [|exact Lo]. assumption.
  - intros dlsa Es G.
    assert (Ms : getz p1 MDP = Ok m).
    { apply lr_setup_frame in S. rewrite (fr_getz _ _ _ _ _ MDP S eq_refl). unfold getz. rewrite M. reflexivity. }
    assert (D1 := lr_dist_dist d p1 p2 m Ms ltac:(lia) D).
    assert (S1 : getn p2 DLSA = Ok dlsa) by (rewrite (fr_getn _ _ _ _ _ DLSA (inv_frame _ _ I2) eq_refl); assumption).
    rewrite (lr_los_beyond p2 d dlsa D1 S1 G) in Lo. inversion Lo; subst p3.
    apply lr_scat_frame in C. apply lr_dist_frame in D. dsimp.
    rewrite (fr_getb _ _ _ _ _ WLOS C eq_refl), (fr_getb _ _ _ _ _ WLOS D eq_refl). assumption.
Qed.

Lemma getn_pn p k v : getn p k = Ok v <-> pn p k = Some v.
Proof. unfold getn. destruct (pn p k); split; intro H; inversion H; subst; reflexivity. Qed.

(** C05, for the distances where the code does not return a stale value. *)
Lemma area_history m p d0 ds q d q' dlsa :
  pz p MDP = Some m -> (0 < m)%Z -> lr_calls A (d0 :: ds) p = Ok q -> lrprop A d q = Ok q' ->
  pn q DLSA = Some dlsa ->
  beyond dlsa d \/ (within dlsa d /\ Forall (fun e => (e <? dlsa) = false) (d0 :: ds)) ->
  exists r, lrprop A d p = Ok r /\ pn q' AREF = pn r AREF.
Proof.
  intros M L H Hd E C. cbn [lr_calls] in H. apply bind_inv in H as [q0 [H0 H]].
  destruct (first_call d0 p q0 m M L H0) as (th & s & T & St & I & M0 & W).
  destruct (lr_calls_inv s ds q0 q I M0 H) as [Iq Mq].
  assert (Es : getn s DLSA = Ok dlsa).
  { rewrite <- (fr_getn _ _ _ _ _ DLSA (inv_frame _ _ Iq) eq_refl). apply getn_pn. assumption. }
  destruct (lrprop_stages A d q q' Hd) as (th' & m' & p1 & p2 & p3 & p4 & a & T' & M' & S & D & Lo & Sc & Ea & Eq).
  rewrite Mq in M'. inversion M'; subst m'. destruct S as [[_ ->]|[S _]]; [|congruence].
  assert (Mz : getz p MDP = Ok m) by (unfold getz; rewrite M; reflexivity).
  assert (Mz' : getz q MDP = Ok 0%Z) by (unfold getz; rewrite Mq; reflexivity).
  assert (X : exists r, lrprop A d p = Ok r /\ getn r AREF = getn q' AREF).
  { destruct C as [B|[Wi Fa]].
    - eapply (call_fresh_beyond s q d q' dlsa 0%Z m th p); try eassumption; lia.
    - inversion Fa; subst. assert (Wq : getb q WLOS = Ok false) by (exact (calls_wlos s dlsa ds q0 q I M0 Es H4 (W dlsa Es H3) H)).
      eapply (call_fresh_within s q d _ dlsa 0%Z m th p); try eassumption; try lia. reflexivity. }
  destruct X as [r [R1 R2]]. exists r. split; [assumption|]. unfold getn in R2.
  destruct (pn r AREF), (pn q' AREF); cbn in R2; congruence.
Qed.

(** What the code does otherwise: aref is left as it was (apart from the final clamp). *)
Lemma area_stale q d q' dlsa a : pz q MDP = Some 0%Z -> pb q WLOS = Some true -> pn q DLSA = Some dlsa ->
  within dlsa d -> pn q AREF = Some a -> lrprop A d q = Ok q' -> pn q' AREF = Some (pymax a #0).
Proof.
  intros M W E (P & P' & G1 & G2) Ea H.
  destruct (lrprop_stages A d q q' H) as (th' & m' & p1 & p2 & p3 & p4 & b & T' & M' & S & D & Lo & Sc & Eb & ->).
  rewrite M in M'. inversion M'; subst m'. destruct S as [[_ ->]|[S _]]; [|congruence].
  assert (M0 : getz q MDP = Ok 0%Z) by (unfold getz; rewrite M; reflexivity).
  assert (D1 := lr_dist_dist d q p2 0%Z M0 (Z.le_refl 0) D). apply lr_dist_frame in D.
  assert (S1 : getn p2 DLSA = Ok dlsa) by (rewrite (fr_getn _ _ _ _ _ DLSA D eq_refl); apply getn_pn; assumption).
  unfold lr_los in Lo. rewrite D1, S1 in Lo. cbn [bind] in Lo. rewrite G1 in Lo.
  rewrite (fr_getb _ _ _ _ _ WLOS D eq_refl) in Lo. unfold getb in Lo. rewrite W in Lo. cbn [bind] in Lo.
  inversion Lo; subst p3. rewrite (lr_scat_within p2 d dlsa D1 S1 P' G2) in Sc. inversion Sc; subst p4.
  rewrite (fr_getn _ _ _ _ _ AREF D eq_refl) in Eb. apply getn_pn in Eb.
  cbn. congruence.
Qed.
End PfArea.
