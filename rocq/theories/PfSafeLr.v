(** Definition before use: scatter stage, lrprop, statistics, preparation. *)
From Verif Require Export PfSafe PfFrame PfArea PfLrGen.
Close Scope R_scope.
Open Scope Z_scope.

Section SafeLr.
Context (A : arith) (N : numeric A) (E : exn -> bool) (EN : forall e, numeric_error e = true -> E e = true).
Local Ltac kp := repeat first [apply keeps_setn | apply keeps_setz | apply keeps_setb | apply keeps_refl].

Definition sca_n : list nkey := [AD; RR; ETQ; H0S] ++ set_n.
Lemma safe_ascat_h0 d th r1 r2 p : D A sca_n [] [] p -> safe E (ascat_h0 A d th r1 r2 p) (fun _ => True).
Proof.
  intros H. unfold ascat_h0. do 15 sstep N EN. eapply safe_bind with (P := fun _ => True).
  { sgo N EN; exact I. }
  intros ? _. sgo N EN; exact I.
Qed.
Lemma safe_ascat d p : D A sca_n [] [] p -> safe E (ascat A d p) (fun q => keeps p q /\ pb q = pb p).
Proof.
  intros H. unfold ascat. sstep N EN.
  eapply safe_bind with (P := fun r => keeps p (snd r) /\ pb (snd r) = pb p).
  - sstep N EN. { cbn [safe snd]. split; [apply keeps_refl | reflexivity]. }
    do 6 sstep N EN. cbn zeta.
    destruct (_ && _).
    + eapply safe_bind; [apply safe_ascat_h0; dset|]. intros h _. sgo N EN. cbn [snd].
      destruct (negb _); (split; [kp | reflexivity]).
    + eapply safe_bind; [apply safe_ascat_h0; dset|]. intros h _. sgo N EN. cbn [snd].
      destruct (negb _); (split; [kp | reflexivity]).
  - intros (h & q) (K & B). cbn [snd] in *. pose proof (keeps_D _ _ _ _ _ K H) as Hq. clear H.
    sgo N EN. split; [apply keeps_setn, K | exact B].
Qed.

Definition wsc (p : prop A) : Prop := pb p WSCAT = Some true -> D A [DX; EMS; AES] [] [] p.

Lemma safe_scat_setup p : D A set_n [] [] p ->
  safe E (lr_scat_setup A p) (fun q => keeps p q /\ D A [DX; EMS; AES] [] [] q).
Proof.
  intros H. unfold lr_scat_setup. do 5 sstep N EN.
  eapply safe_bind with (P := fun _ => True). { sgo N EN; exact I. }
  intros (? & ?) _. cbn zeta. do 2 sstep N EN.
  match goal with |- safe _ (bind (ascat _ _ ?q) _) _ => assert (D1 : D A sca_n [] [] q) by dset;
    assert (K1 : keeps p q) by kp; generalize dependent q; intros p1 D1 K1 end.
  eapply safe_bind; [apply safe_ascat, D1|]. intros p2 (K2 & _). pose proof (keeps_D _ _ _ _ _ K2 D1) as D2.
  sstep N EN. eapply safe_bind; [apply safe_ascat, D2|]. intros p3 (K3 & _). pose proof (keeps_D _ _ _ _ _ K3 D2) as D3.
  assert (K : keeps p p3) by exact (keeps_trans _ _ _ K1 (keeps_trans _ _ _ K2 K3)).
  clear H D1 D2 K1 K2 K3 p1 p2.
  do 3 sstep N EN.
  eapply safe_bind with (P := fun q => keeps p q /\ D A [DX; EMS; AES] [] [] q).
  - sgo N EN.
    + split; [do 3 apply keeps_setn; exact K | dset].
    + split; [do 3 apply keeps_setn; exact K | dset].
  - intros q (Kq & Dq). cbn [safe]. split; [apply keeps_setb; exact Kq | dset].
Qed.

Lemma safe_scat p : D A (DIST :: set_n) [] [WSCAT] p -> wsc p ->
  safe E (lr_scat A p) (fun q => keeps p q /\ wsc q /\
    (forall x dlsa, pn p DIST = Some x -> pn p DLSA = Some dlsa -> (x <=? n_Z 0)%num || (dlsa <=? x)%num = true -> pn q AREF <> None /\ pn q DX <> None)).
Proof.
  intros H W. unfold lr_scat.
  unfold getn at 1 2. destruct (pn p DIST) as [x|] eqn:Ex; [|exfalso; apply (D_n _ _ _ _ _ DIST H eq_refl), Ex].
  destruct (pn p DLSA) as [y|] eqn:Ey; [|exfalso; apply (D_n _ _ _ _ _ DLSA H eq_refl), Ey].
  cbn [bind opt_res]. destruct ((x <=? n_Z 0)%num || (y <=? x)%num) eqn:C.
  2:{ cbn [safe]. split; [apply keeps_refl | split; [exact W|]]. intros x' y' Hx Hy. congruence. }
  sstep N EN.
  eapply safe_bind with (P := fun q => keeps p q /\ D A [DX; EMS; AES] [] [] q).
  { destruct v; [split; [apply keeps_refl | apply W; assumption]|]. apply safe_scat_setup. dsub H. }
  intros q (Kq & Dq). pose proof (D_join _ _ _ _ _ _ _ _ Kq H Dq) as D2.
  sgo N EN; (split; [apply keeps_setn; exact Kq | split; [intros _; dset | intros; split; [cbn; discriminate | exact (D_n _ _ _ _ _ DX Dq eq_refl)]]]).
Qed.

(** Before lrprop: the caller's entries; in continuing mode also what the set-up provides; dist in point-to-point mode. *)
Definition lr_ready (p : prop A) : Prop :=
  D A inp_n [MDP; KWX] [] p /\
  (forall m, pz p MDP = Some m -> (m = 0 -> D A set_n [] [WLOS; WSCAT] p /\ wsc p) /\ (m < 0 -> pn p DIST <> None)).
Definition lr_done (p : prop A) : Prop := D A (AREF :: DIST :: set_n) [MDP; KWX] [WLOS; WSCAT] p /\ wsc p.

(** Beyond the horizons the distance of the transition to scatter is there. *)
Definition dx_ok (p : prop A) : Prop :=
  forall x y, pn p DIST = Some x -> pn p DLSA = Some y -> (y <=? x)%num = true -> pn p DX <> None.
Lemma safe_lrprop d p : lr_ready p -> (pn p AREF <> None \/ (comparable A /\ pz p MDP <> Some 0) \/ E KeyError = true) ->
  safe E (lrprop A d p) (fun q => keeps p q /\ lr_done q /\ dx_ok q).
Proof.
  intros (H & M) AR. unfold lrprop. sstep N EN. sstep N EN. rename v into m, H0 into Em. destruct (M _ Em) as (M0 & M1).
  eapply safe_bind with (P := fun q => keeps p q /\ D A set_n [MDP; KWX] [WLOS; WSCAT] q /\ wsc q /\
    (pn q AREF <> None \/ (comparable A /\ pb q WLOS = Some false) \/ E KeyError = true) /\ (forall m, pz q MDP = Some m -> m < 0 -> pn q DIST <> None)).
  { destruct (Z.eqb_spec m 0) as [Z0 | Z0].
    - cbn [negb safe]. destruct (M0 Z0) as (D0 & W0). split; [apply keeps_refl|]. split; [|split; [exact W0|split]].
      + pose proof (D_app _ _ _ _ _ _ _ H D0) as D1. dsub D1.
      + destruct AR as [AR | [[_ AR] | AR]]; [left; exact AR | subst; contradiction | right; right; exact AR].
      + intros m' Em'. rewrite Em in Em'. injection Em' as <-. exact M1.
    - cbn [negb].
      assert (WL : forall q, lr_setup A x p = Ok q -> pb q WLOS = Some false /\ pz q MDP = Some m).
      { intros q Hq. split; [|rewrite (lr_setup_mdp A _ _ _ Hq); exact Em].
        destruct (lr_setup_flags _ _ _ _ Hq) as [_ W]. apply pb_getb. exact W. }
      pose proof (safe_setup A N E EN x p H) as S. destruct (lr_setup A x p) as [q|e] eqn:Eq; [|exact S].
      cbn [safe] in S |- *. destruct S as (K & Dq & B). destruct (WL q eq_refl) as (WL1 & WL2).
      split; [exact K|]. split; [exact Dq|]. split; [|split].
      + intro B'. congruence.
      + destruct AR as [AR | [[AR _] | AR]]; [left; apply K, AR | right; left; split; assumption | right; right; exact AR].
      + intros m' Em' Hm. apply K. apply M1. congruence. }
  intros q (Kq & Dq & Wq & ARq & Mq).
  eapply safe_bind; [apply (safe_dist A E d q); [dsub Dq | exact Mq]|].
  intros q1 (K1 & D1 & B1). pose proof (D_join _ _ _ _ _ _ _ _ K1 Dq D1) as D1'.
  pose proof (safe_los A N E EN q1 ltac:(dsub D1')) as SL.
  destruct (lr_los A q1) as [q2|e] eqn:EL; [|exact SL]. cbn [bind]. cbn [safe] in SL. destruct SL as (K2 & B2 & A2).
  (* the scatter stage reads the same distances *)
  assert (SD : pn q2 DIST = pn q1 DIST /\ pn q2 DLSA = pn q1 DLSA).
  { apply lr_los_frame in EL. destruct EL as [F _]. split; apply F, memn_nIn; reflexivity. } pose proof (keeps_D _ _ _ _ _ K2 D1') as D2.
  assert (W2 : wsc q2).
  { intro B. rewrite B2, B1 in B. apply (keeps_D _ _ _ _ _ K2), (keeps_D _ _ _ _ _ K1), Wq, B. }
  pose proof (safe_scat q2 ltac:(dsub D2) W2) as SS.
  destruct (lr_scat A q2) as [q3|e] eqn:ES; [|exact SS]. cbn [bind]. cbn [safe] in SS. destruct SS as (K3 & W3 & A3).
  assert (SD3 : pn q3 DIST = pn q2 DIST /\ pn q3 DLSA = pn q2 DLSA).
  { apply lr_scat_frame in ES. destruct ES as [F _]. split; apply F, memn_nIn; reflexivity. }
  pose proof (keeps_D _ _ _ _ _ K3 D2) as D3.
  assert (AR3 : pn q3 AREF <> None \/ E KeyError = true).
  { destruct ARq as [AR' | [[CMP AR'] | AR']]; [left; apply K3, K2, K1, AR'| left | right; exact AR'].
    destruct SD as (S1 & S2).
    destruct (pn q1 DIST) as [xd|] eqn:Ed; [|exfalso; apply (D_n _ _ _ _ _ DIST D1' eq_refl), Ed].
    destruct (pn q1 DLSA) as [y|] eqn:Ey; [|exfalso; apply (D_n _ _ _ _ _ DLSA D1' eq_refl), Ey].
    destruct (xd <? y)%num eqn:C1.
    - destruct (n_Z 0 <? xd)%num eqn:C2.
      + apply K3. apply (A2 xd y); auto. rewrite B1. exact AR'.
      + apply (A3 xd y); auto. rewrite (proj1 CMP _ _ C2). reflexivity.
    - apply (A3 xd y); auto. rewrite (proj1 CMP _ _ C1). apply orb_true_r. }
  unfold getn. destruct (pn q3 AREF) as [a|] eqn:Ea; [|destruct AR3 as [X|X]; [congruence | exact X]].
  cbn [opt_res bind safe]. split.
  - apply keeps_setn. exact (keeps_trans _ _ _ Kq (keeps_trans _ _ _ K1 (keeps_trans _ _ _ K2 K3))).
  - split; [split; [dset | intros B; pose proof (W3 B) as X; clear D3; dset]|].
    intros x' y' Hx Hy Hxy. cbn in Hx, Hy |- *. destruct SD3 as (S3 & S4). rewrite S3 in Hx. rewrite S4 in Hy.
    apply (A3 x' y' Hx Hy). rewrite Hxy. apply orb_true_r.
Qed.

(** * Statistics *)
Definition cl_n : list nkey := map fst (climate_tables A).
Lemma safe_tables (l : list (nkey * list (num A))) i : 0 <= i < 7 -> Forall (fun kt => length (snd kt) = 7%nat) l ->
  forall p, safe E (foldM (fun p kt => let! v := pyget (snd kt) i in Ok (setn p (fst kt) v)) l p)
              (fun q => keeps p q /\ D A (map fst l) [] [] q /\ pz q = pz p /\ pb q = pb p).
Proof.
  intros Hi F. induction F as [|(k & t) l L F IH]; intros p.
  - cbn [foldM safe map]. split; [apply keeps_refl|]. repeat split; discriminate.
  - cbn [foldM fst snd map] in *.
    assert (X : exists v, pyget t i = Ok v).
    { unfold pyget. rewrite L. cbn [Z.of_nat]. change (Z.pos (Pos.of_succ_nat 6)) with 7.
      destruct (Z.ltb_spec i 0); [lia|]. destruct (Z.ltb_spec i 0); [lia|]. destruct (Z.leb_spec 7 i); [lia|]. cbn [orb].
      destruct (nth_error t (Z.to_nat i)) eqn:En; [eexists; reflexivity|].
      apply nth_error_None in En. rewrite L in En. lia. }
    destruct X as [v ->]. cbn [bind]. eapply safe_conseq; [apply IH|]. intros q (K & Dq & Z & B).
    split; [|split; [|split; assumption]].
    + refine (keeps_trans _ _ _ _ K). apply keeps_setn, keeps_refl.
    + split; [|split; discriminate]. intros k' Hk. apply memn_In in Hk. destruct Hk as [<- | Hk].
      * apply K. cbn. rewrite nkey_eqb_refl. discriminate.
      * apply Dq, memn_In, Hk.
Qed.

Lemma safe_klim p : D A [] [KLIM; KWX] [] p ->
  safe E (av_klim A p) (fun q => keeps p q /\ D A cl_n [KLIM; KWX] [] q /\ pb q = pb p).
Proof.
  intros H. unfold av_klim. sstep N EN.
  eapply safe_bind with (P := fun q => keeps p q /\ D A [] [KLIM; KWX] [] q /\ pb q = pb p /\ exists k, pz q KLIM = Some k /\ 1 <= k <= 7).
  - destruct ((v <=? 0) || (7 <? v)) eqn:C.
    + sgo N EN. split; [kp | split; [dset | split; [reflexivity|]]]. exists 5. split; [reflexivity | lia].
    + cbn [safe]. split; [apply keeps_refl | split; [exact H | split; [reflexivity|]]]. exists v. split; [assumption|].
      apply orb_false_elim in C. destruct C. lia.
  - intros q (K & Dq & B & k & Ek & Hk). unfold getz. rewrite Ek. cbn [opt_res bind].
    eapply safe_conseq; [apply (safe_tables (climate_tables A) (k - 1)); [lia | repeat constructor]|].
    intros r (K2 & D2 & Z2 & B2). split; [exact (keeps_trans _ _ _ K K2) | split; [|congruence]].
    pose proof (D_join _ _ _ _ _ _ _ _ K2 Dq D2) as D3. split; [exact (proj1 D2) | split; [|discriminate]].
    intros z Hz. apply D3. unfold memz in *. rewrite existsb_app, Hz. reflexivity.
Qed.

Definition avi_n : list nkey := [HE0; HE1; WN; DH; DIST; AREF].
Definition avc_n : list nkey := [GM; GP; DEXA; VMD; SGTM; SGTP; SGTD; TGTD; SGL; VS0] ++ cl_n.
(** What a call of avar leaves behind. *)
Definition av_done (p : prop A) : Prop := D A avc_n [KDV] [WS; WL] p.
(** Before a call: the inputs, and either a full refresh is pending or an earlier call has left its statistics. *)
Definition av_ready (p : prop A) : Prop :=
  D A avi_n [LVAR; KWX; KLIM; MDVAR] [] p /\ ((exists lv, pz p LVAR = Some lv /\ 4 < lv) \/ av_done p).

Lemma safe_mode p : D A [] [MDVAR; KWX] [] p ->
  safe E (av_mode A p) (fun q => keeps p q /\ D A [] [KDV] [WS; WL] q).
Proof. intros H. unfold av_mode. sgo N EN; (split; [kp | dset]). Qed.
Lemma safe_freq p : D A ([WN] ++ cl_n) [] [] p -> safe E (av_freq A p) (fun q => keeps p q /\ D A [GM; GP] [] [] q).
Proof. intros H. unfold av_freq. sgo N EN; (split; [kp | dset]). Qed.
Lemma safe_he t p : D A [WN; HE0; HE1] [] [] p -> safe E (av_he A t p) (fun q => keeps p q /\ D A [DEXA] [] [] q).
Proof. intros H. unfold av_he. sgo N EN; (split; [kp | dset]). Qed.
Lemma safe_de p : D A [DIST; DEXA] [] [] p -> safe E (av_de A p) (fun _ => True).
Proof.
  intros H. unfold av_de. sgo N EN; [|exact I]. apply (safe_num0 _ _ EN). apply (nm_div _ N).
Qed.
Lemma safe_avdist p : D A ([DIST; DEXA; GM; GP; DH; WN] ++ cl_n) [] [WS; WL] p ->
  safe E (av_dist A p) (fun q => keeps p q /\ D A [VMD; SGTM; SGTP; SGTD; TGTD; SGL; VS0] [] [] q).
Proof.
  intros H. unfold av_dist. eapply safe_bind; [apply safe_de; dsub H|]. intros de _.
  sgo N EN.
  eapply safe_bind with (P := fun _ => True).
  { sgo N EN; [exact I|]. apply (safe_num0 _ _ EN). apply (nm_div _ N). }
  intros ? _. sgo N EN. eapply safe_bind with (P := fun _ => True).
  { sgo N EN; [exact I|]. apply (safe_num0 _ _ EN). apply (nm_powZ _ N). }
  intros ? _. sgo N EN. split; [kp | dset].
Qed.

Lemma memn_app k l l' : memn k (l ++ l') = memn k l || memn k l'. Proof. apply existsb_app. Qed.
(** One level of the refresh: either executed, or its results are there already. *)
Lemma safe_refresh t p : av_ready p ->
  safe E (av_refresh A t p) (fun q => keeps p q /\ av_done q).
Proof.
  intros [H C]. unfold av_refresh. sstep N EN.
  assert (C' : 4 < v \/ av_done p).
  { destruct C as [(lv & e & L) | C]; [left; congruence | right; exact C]. }
  destruct (0 <? v) eqn:C0; [|cbn [safe]; split; [apply keeps_refl | destruct C'; [lia | assumption]]].
  assert (DN : forall q, keeps p q -> 4 < v \/ av_done q).
  { intros q K. destruct C' as [C' | C']; [left; exact C' | right; exact (keeps_D _ _ _ _ _ K C')]. }
  eapply safe_bind with (P := fun q => keeps p q /\ D A cl_n [] [] q).
  { destruct (4 <? v) eqn:C4.
    - eapply safe_conseq; [apply safe_klim; dsub H|]. intros q (K & Dq & _). split; [exact K | dsub Dq].
    - cbn [safe]. split; [apply keeps_refl|]. destruct C' as [C' | C']; [lia | dsub C']. }
  intros q1 [K1 D1].
  eapply safe_bind with (P := fun q => keeps p q /\ D A cl_n [KDV] [WS; WL] q).
  { destruct (3 <? v) eqn:C4.
    - pose proof (keeps_D _ _ _ _ _ K1 H) as H1. eapply safe_conseq; [apply safe_mode; dsub H1|].
      intros q (K & Dq). split; [exact (keeps_trans _ _ _ K1 K)|]. pose proof (D_join _ _ _ _ _ _ _ _ K D1 Dq) as X. dsub X.
    - cbn [safe]. split; [exact K1|]. destruct (DN _ K1) as [X | X]; [lia | dsub X]. }
  intros q2 [K2 D2].
  eapply safe_bind with (P := fun q => keeps p q /\ D A ([GM; GP] ++ cl_n) [KDV] [WS; WL] q).
  { destruct (2 <? v) eqn:C4.
    - pose proof (keeps_D _ _ _ _ _ K2 H) as H1. pose proof (D_app _ _ _ _ _ _ _ H1 D2) as H2.
      eapply safe_conseq; [apply safe_freq; dsub H2|].
      intros q (K & Dq). split; [exact (keeps_trans _ _ _ K2 K)|]. pose proof (D_join _ _ _ _ _ _ _ _ K D2 Dq) as X. dsub X.
    - cbn [safe]. split; [exact K2|]. destruct (DN _ K2) as [X | X]; [lia | dsub X]. }
  intros q3 [K3 D3].
  eapply safe_bind with (P := fun q => keeps p q /\ D A ([DEXA; GM; GP] ++ cl_n) [KDV] [WS; WL] q).
  { destruct (1 <? v) eqn:C4.
    - pose proof (keeps_D _ _ _ _ _ K3 H) as H1. eapply safe_conseq; [apply safe_he; dsub H1|].
      intros q (K & Dq). split; [exact (keeps_trans _ _ _ K3 K)|]. pose proof (D_join _ _ _ _ _ _ _ _ K D3 Dq) as X. dsub X.
    - cbn [safe]. split; [exact K3|]. destruct (DN _ K3) as [X | X]; [lia | dsub X]. }
  intros q4 [K4 D4].
  pose proof (keeps_D _ _ _ _ _ K4 H) as H1. pose proof (D_app _ _ _ _ _ _ _ H1 D4) as H2.
  eapply safe_conseq; [apply safe_avdist; dsub H2|].
  intros q (K & Dq). split; [exact (keeps_trans _ _ _ K4 K)|]. pose proof (D_join _ _ _ _ _ _ _ _ K D4 Dq) as X. unfold av_done. dsub X.
Qed.

Lemma safe_sgt zt p : av_done p -> safe E (av_sgt A zt p) (fun _ => True).
Proof.
  intros H. unfold av_done in H. unfold av_sgt.
  assert (G : forall k, pn p k <> None -> safe E (getn p k) (fun _ => True)).
  { intros k Hk. unfold getn. destruct (pn p k); [exact I | congruence]. }
  destruct (zt <? #0)%num; [apply G; hask|]. sstep N EN. destruct (zt <=? v)%num; [apply G; hask|].
  sgo N EN. exact I.
Qed.
Lemma safe_raw kdv zt zl zc sgt p : av_done p -> D A avi_n [] [] p -> safe E (av_raw A kdv zt zl zc sgt p) (fun _ => True).
Proof.
  intros H1 H2. unfold av_raw. pose proof (D_app _ _ _ _ _ _ _ H1 H2) as H. clear H1 H2.
  sgo N EN. eapply safe_bind with (P := fun _ => True).
  { sgo N EN; exact I. }
  intros (yr & sgc) _. sgo N EN. exact I.
Qed.
Lemma safe_quant a b c p : av_done p -> D A avi_n [KWX] [] p -> safe E (av_quant A a b c p) (fun q => keeps p (snd q)).
Proof.
  intros H1 H2. unfold av_quant. pose proof (D_app _ _ _ _ _ _ _ H1 H2) as H.
  sstep N EN. destruct (av_fold A v a b c) as ((zt & zl) & zc).
  eapply safe_bind with (P := fun q => keeps p q).
  { sgo N EN; [kp | apply keeps_refl]. }
  intros q K. pose proof (keeps_D _ _ _ _ _ K H1) as H3. pose proof (keeps_D _ _ _ _ _ K H2) as H4.
  eapply safe_bind; [apply safe_sgt, H3|]. intros s _.
  eapply safe_bind; [apply safe_raw; [exact H3 | dsub H4]|]. intros r _.
  sgo N EN. exact K.
Qed.
Lemma safe_avar a b c p : av_ready p -> safe E (avar A a b c p) (fun q => keeps p (snd q) /\ av_done (snd q)).
Proof.
  intros H. unfold avar. sstep N EN. eapply safe_bind; [apply safe_refresh, H|]. intros q [K Dq].
  pose proof (keeps_D _ _ _ _ _ K (proj1 H)) as H1.
  eapply safe_conseq; [apply safe_quant; [exact Dq | dsub H1]|]. intros (y & r) K2. cbn [snd] in *.
  split; [exact (keeps_trans _ _ _ K K2) | exact (keeps_D _ _ _ _ _ K2 Dq)].
Qed.
End SafeLr.
