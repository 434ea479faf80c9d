(** Definition before use: the two instances, and the script drivers. *)
From Interval Require Import Tactic.
From Verif Require Import RInst PyFloat SpecProfile PfPfl SpecSafe PfSafe PfSafeLr PfSafePrep PfFrame PfLrGen Scripts.
Close Scope R_scope.
Open Scope Z_scope.

Local Ltac one := intros e X; repeat (match type of X with context [if ?b then _ else _] => destruct b end); inversion X; reflexivity.
Lemma numeric_RA : numeric RA.
Proof.
  constructor; intros; try (cbn; unfold r_div, r_sqrt, r_log, r_powZ, r_pow, r_csqrt, r_round; cbv zeta; one).
  cbn. unfold r_eqb. destruct (Req_EM_T 0 0); [reflexivity | contradiction].
Qed.
Lemma comparable_RA : comparable RA.
Proof.
  split; intros x y; cbn; unfold r_ltb, r_leb.
  - destruct (Rlt_dec x y); [discriminate|]. intros _. destruct (Rle_dec y x); [reflexivity | lra].
  - destruct (Rle_dec x y); [discriminate|]. intros _. destruct (Rle_dec y x); [reflexivity | lra].
Qed.
Lemma int_num f x : only_numeric (py_int f x).
Proof. intros e. destruct x as [z | s | s]; cbn; try discriminate; destruct s; cbn; try discriminate; try (intros X; inversion X; reflexivity);
  destruct (scaled _ _ _); discriminate. Qed.
Lemma powf_num L x y : only_numeric (py_powf L x y).
Proof. unfold py_powf. cbv zeta. one. Qed.
Lemma numeric_Py L : numeric (PyA L).
Proof.
  constructor; intros; try apply int_num; try apply powf_num; try reflexivity;
    try (cbn [n_div m_sqrt m_exp m_sin m_cos np_log np_sqrt n_hypot n_csqrt PyA]; unfold py_div, py_sqrt, py_exp, py_trig, py_hypot, py_csqrt; cbv zeta; one).
  - cbn. unfold py_powZ. destruct x; try apply powf_num. destruct (0 <=? k); [intros e X; discriminate | apply powf_num].
  - cbn. unfold py_round. intros e. destruct x as [z | s | s]; try discriminate; destruct s; try discriminate; destruct (scaled _ _ _); discriminate.
Qed.

Section SafeScripts.
Context (A : arith) (N : numeric A) (C : comparable A).
Section E0.
Context (E : exn -> bool) (EN : forall e, numeric_error e = true -> E e = true).
Notation ok m := (safe E m (fun _ => True)).

Lemma keeps_setpfl (p : prop A) f : keeps p (setpfl p f).
Proof. repeat split; auto. discriminate. Qed.
Lemma safe_gme a g p : safe E (script_gme A a g p) (fun q => keeps p q /\ D A [GMA; ENS; GME] [] [] q /\ pz q = pz p /\ ppfl q = ppfl p).
Proof. unfold script_gme. sgo N EN. split; [kp | split; [|split; reflexivity]].
  split; [|split; discriminate]. intros k Hk. apply memn_In in Hk. destruct Hk as [<- | [<- | [<- | []]]]; discriminate. Qed.

(** ** Rows of one distance *)
Lemma safe_area_rows D0 FS ZT ZL qz : forall p, ses_inv A p -> safe E (area_rows A D0 FS ZT ZL qz p) (fun r => ses_inv A (snd r) /\ keeps p (snd r)).
Proof.
  induction qz as [|(qc & zc) qz IH]; intros p I; cbn [area_rows].
  - cbn [safe snd]. split; [exact I | apply keeps_refl].
  - pose proof (safe_avar A N E EN ZT ZL zc p (ses_avar_ready A p I)) as S.
    destruct (avar A ZT ZL zc p) as [(a & q)|e] eqn:Ea; [|exact S]. cbn [bind]. destruct S as [K _]. cbn [snd] in K.
    pose proof (inv_avar A N E EN ZT ZL zc p a q Ea I) as I2.
    eapply safe_bind; [apply IH, I2|]. intros (rows & r) [I3 K3]. cbn [safe snd] in *. split; [exact I3 | exact (keeps_trans _ _ _ K K3)].
Qed.
Lemma safe_p2p_rows d fs qr zr qz : forall p, ses_inv A p -> safe E (p2p_rows A d fs qr zr qz p) (fun r => ses_inv A (snd r)).
Proof.
  induction qz as [|(qc & zc) qz IH]; intros p I; cbn [p2p_rows].
  - cbn [safe snd]. exact I.
  - pose proof (safe_avar A N E EN zr (n_Z 0) zc p (ses_avar_ready A p I)) as S.
    destruct (avar A zr (n_Z 0) zc p) as [(a & q)|e] eqn:Ea; [|exact S]. cbn [bind].
    pose proof (inv_avar A N E EN zr (n_Z 0) zc p a q Ea I) as I2.
    eapply safe_bind; [apply IH, I2|]. intros (rows & r) I3. exact I3.
Qed.
Lemma safe_p2p_table d fs qrz qcz : forall p, ses_inv A p -> ok (p2p_table A d fs qrz qcz p).
Proof.
  induction qrz as [|(qr & zr) l IH]; intros p I; cbn [p2p_table]; [exact Logic.I|].
  eapply safe_bind; [apply safe_p2p_rows, I|]. intros (rows & q) I2. cbn [snd] in I2.
  eapply safe_bind; [apply IH, I2|]. intros rest _. exact Logic.I.
Qed.

(** ** The distance loop: ready for lrprop, statistics requested, caller's entries there *)
Definition loop_inv (p : prop A) : Prop :=
  lr_ready A p /\ (pn p AREF <> None \/ (comparable A /\ pz p MDP <> Some 0)) /\ D A [] control_caller [] p /\ stat_in A p.
Lemma ses_loop p : ses_inv A p -> loop_inv p.
Proof. intros (L & X & S). destruct (done_ready A p L) as [R AR]. split; [exact R|]. split; [left; exact AR|]. split; [exact X | exact S]. Qed.
Lemma loop_lvar p lv : pz p LVAR = Some lv -> loop_inv p -> loop_inv (setz p LVAR (Z.max 1 lv)).
Proof.
  intros Elv (R & AR & X & [G P]).
  assert (K : keeps p (setz p LVAR (Z.max 1 lv))) by kp.
  split; [|split; [exact AR|]].
  - destruct R as [R1 R2]. split; [exact (keeps_D _ _ _ _ _ K R1)|]. intros m Em. destruct (R2 m Em) as [a b]. split; [|exact b].
    intros H. destruct (a H) as [a1 a2]. split; [exact (keeps_D _ _ _ _ _ K a1) | exact (wsc_keep A p _ K eq_refl a2)].
  - split; [exact (keeps_D _ _ _ _ _ K X)|]. split; [exact (keeps_D _ _ _ _ _ K G)|].
    destruct P as [(l & a & b) | P]; [left; eexists; split; [reflexivity|]; assert (l = lv) by congruence; lia | right; exact (keeps_D _ _ _ _ _ K P)].
Qed.
Lemma safe_area_loop n : forall JD NDC D0 DT DS2 ZT ZL qz p, loop_inv p -> ok (area_loop A n JD NDC D0 DT DS2 ZT ZL qz p).
Proof.
  induction n as [|n IH]; intros JD NDC D0 DT DS2 ZT ZL qz p I; cbn [area_loop]; [exact Logic.I|].
  pose proof (proj1 (proj2 (proj2 I))) as X.
  apply safe_getz; [hask|]. intros lv Elv. pose proof (loop_lvar p lv Elv I) as I1.
  destruct I1 as (R & AR & X1 & S1).
  eapply safe_bind; [apply (safe_lrprop_stat A N E EN); [exact R | destruct AR as [AR | AR]; [left; exact AR | right; left; exact AR]]|].
  intros q (K & L & _ & S). specialize (S S1).
  assert (I2 : ses_inv A q) by (split; [exact L | split; [exact (keeps_D _ _ _ _ _ K X1) | exact S]]).
  pose proof (proj1 L) as DL. sgo N EN.
  eapply safe_bind; [apply safe_area_rows, I2|]. intros (rows & r) [I3 K3]. cbn [snd] in *.
  eapply safe_bind; [apply IH, ses_loop, I3|]. intros rest _. exact Logic.I.
Qed.

Lemma on_area_grid c : only_numeric (area_grid A c).
Proof. unfold area_grid. onum N. Qed.

Definition area_keys : list nkey := [HG0; HG1; DH; FMHZ].
Lemma safe_area_env p : D A area_keys [IPOL] [] p ->
  safe E (area_env A p) (fun q => keeps p q /\ D A area_caller control_caller [] q /\ statistics_requested q).
Proof.
  intros H. unfold area_env. sgo N EN.
  eapply safe_bind; [apply safe_gme|]. intros q (K & Dq & Zq & _).
  match type of K with keeps ?p1 q => assert (D1 : D A ([WN] ++ area_keys) ([IPOL; KLIMX; MDVARX; KWX]) [] p1) by dset;
    assert (K1 : keeps p p1) by kp; assert (Z1 : pz p1 KLIMX = Some 5 /\ pz p1 MDVARX = Some 3) by (split; reflexivity) end.
  pose proof (D_join _ _ _ _ _ _ _ _ K D1 Dq) as D2. pose proof (keeps_trans _ _ _ K1 K) as K2.
  rewrite <- Zq in Z1. clear D1 K K1.
  sgo N EN.
  eapply safe_bind with (P := fun _ => True); [sgo N EN; [apply (safe_num0 _ _ EN); apply (on_c_div A N) | exact Logic.I]|].
  intros z _. cbn [safe]. split; [kp | split; [dset|]].
  left. exists 3, 5. cbn. destruct Z1. repeat split; try assumption; lia.
Qed.

Lemma safe_area c p : E UnboundLocalError = true \/ (forall a b d, area_grid A c <> Ok (a, None, b, d)) ->
  D A area_keys [IPOL] [] p -> ok (itmlogic_area_cfg A c p).
Proof.
  intros U H. unfold itmlogic_area_cfg. sgo N EN.
  eapply safe_bind; [apply (safe_num0 _ _ EN), on_mapM; intros; apply (nm_div _ N)|]. intros qc _.
  sgo N EN. destruct (area_grid A c) as [(((a & b) & d) & e)|er] eqn:G; [|apply EN, (on_area_grid c), G].
  cbn [bind]. eapply safe_bind; [apply safe_area_env, H|]. intros q (K & Dq & SR).
  eapply safe_bind; [apply (safe_qlra A N E EN); dsub Dq|]. intros r (K2 & D2 & M & B & S).
  specialize (S (or_intror SR)). pose proof (D_join _ _ _ _ _ _ _ _ K2 Dq D2) as D3.
  destruct b as [b|]; cbn [opt_res bind].
  - apply safe_area_loop. split; [|split; [right; split; [exact C | rewrite M; discriminate] | split; [dsub D3 | exact S]]].
    apply (prep_ready A 1); [dsub D3 | exact M | lia | lia].
  - destruct U as [U | U]; [exact U | exfalso; exact (U _ _ _ eq_refl)].
Qed.
End E0.

Section E1.
Context (E : exn -> bool) (EN : forall e, numeric_error e = true -> E e = true).
Notation ok m := (safe E m (fun _ => True)).
(** What p2p_prepare needs from qlrpfl's geometry: either indices may fail, or the geometry is known to run. *)
Definition geom_ok (p : prop A) : Prop := E IndexError = true \/ exists q, qlrpfl_geom A p = Ok q.
Lemma safe_qlrpfl' p : geom_ok p -> D A path_caller control_caller [] p -> ppfl p <> None ->
  safe E (qlrpfl A p) (fun q => keeps p q /\ lr_done A q /\ dx_ok A q /\ (stat_in A p \/ statistics_requested p -> stat_in A q)).
Proof.
  intros [EI | [q0 G]] H F.
  - apply (safe_qlrpfl A N E EN EI); auto.
  - unfold qlrpfl. rewrite G. cbn [bind].
    assert (X : safe (fun _ => true) (qlrpfl_geom A p) (fun q => keeps p q /\ D A ([DIST; DH] ++ prp_n) [] [] q /\ pz q = pz p)).
    { apply (safe_geometry A N (fun _ => true) (fun _ _ => eq_refl) eq_refl); [dsub H | exact F]. }
    rewrite G in X. destruct X as (K & Dq & Zq). pose proof (D_join _ _ _ _ _ _ _ _ K H Dq) as D1.
    eapply safe_bind; [apply (safe_control A E (-1)); dsub D1|]. intros r (Kr & M & Pn & Pb & S).
    pose proof (keeps_D _ _ _ _ _ Kr D1) as D2.
    eapply safe_conseq; [apply (safe_lrprop_stat A N E EN)|].
    + apply (prep_ready A (-1)); [dsub D2 | exact M | lia | intros _; apply (D_n _ _ _ _ _ DIST D2 eq_refl)].
    + right. left. split; [exact C | rewrite M; discriminate].
    + intros s (Ks & L & X & T). split; [exact (keeps_trans _ _ _ K (keeps_trans _ _ _ Kr Ks))|]. split; [exact L|]. split; [exact X|].
      intros Q. apply T, S. destruct Q as [Q | Q].
      * left. apply (stat_keep A p q0 K); [rewrite Zq; reflexivity | exact Q].
      * right. unfold statistics_requested in *. rewrite Zq. exact Q.
Qed.

Lemma safe_classify xi p : lr_done A p -> dx_ok A p -> ok (p2p_classify A xi p).
Proof.
  intros [L _] X. unfold p2p_classify.
  unfold getn at 1 2. destruct (pn p DIST) as [x|] eqn:Ex; [|exfalso; apply (D_n _ _ _ _ _ DIST L eq_refl), Ex].
  destruct (pn p DLSA) as [y|] eqn:Ey; [|exfalso; apply (D_n _ _ _ _ _ DLSA L eq_refl), Ey].
  cbn [bind opt_res]. eapply safe_bind with (P := fun _ => True); [|intros; exact I].
  destruct (x <=? y)%num eqn:Cxy; [exact I|]. apply safe_getn; [apply (X x y Ex Ey), (proj2 C), Cxy|].
  intros dx. destruct (_ >? _)%num; exact I.
Qed.

Definition path_keys : list nkey := [HG0; HG1; FMHZ; DKM].
(** The dictionary p2p_prepare passes to qlrpfl. *)
Definition p2p_ready (p q : prop A) (f : profile A) : Prop :=
  keeps p q /\ D A path_caller control_caller [] q /\ statistics_requested q /\ ppfl q = Some f /\
  pn q HG0 = pn p HG0 /\ pn q HG1 = pn p HG1.
Lemma safe_prepare z p : D A path_keys [IPOL] [] p ->
  (forall d f q g, pn p DKM = Some d -> p2p_profile A d z = Ok f -> p2p_ready p q f ->
     pn q GME = Some g -> (exists e t, n_div (n_Z 314) (n_lit 1793 10) = Ok t /\ m_exp t = Ok e /\
       g = (n_lit 157 1000000000 * (n_Z 1 - n_lit 4665 100000 * e))%num) -> geom_ok q) ->
  safe E (p2p_prepare A z p) (fun q => keeps p q /\ ses_inv A q /\ dx_ok A q /\ ppfl q <> None).
Proof.
  intros H G. unfold p2p_prepare.
  unfold getn at 1. cbn [pn setn setz nkey_eqb nkey_id Pos.eqb]. destruct (pn p DKM) as [d|] eqn:Ed; [|exfalso; apply (D_n _ _ _ _ _ DKM H eq_refl), Ed].
  cbn [opt_res bind]. specialize (G d).
  destruct (p2p_profile A d z) as [f|e] eqn:Ef.
  2:{ cbn [bind safe]. apply EN. unfold p2p_profile in Ef. destruct (_ =? _); [injection Ef as <-; reflexivity|].
      clear G. match type of Ef with bind ?m _ = _ => destruct m eqn:Q; cbn [bind] in Ef; [discriminate|] end. revert Ef. intros X. injection X as <-. exact (nm_div _ N _ _ _ Q). }
  cbn [bind]. specialize (G f).
  apply safe_getn; [change (pn p FMHZ <> None); hask|]. intros fm.
  sstep N EN. rename x into wn.
  set (p1 := setn _ WN wn).
  assert (P1 : keeps p p1 /\ D A ([WN] ++ path_keys) [IPOL; KLIM; LVAR; KWX] [] p1 /\ ppfl p1 = Some f /\
    pz p1 LVAR = Some 5 /\ pn p1 HG0 = pn p HG0 /\ pn p1 HG1 = pn p HG1).
  { split; [|split; [|split; [|split; [|split]]]]; try reflexivity.
    - unfold p1. apply keeps_setn, keeps_setz. eapply keeps_trans; [|apply keeps_setpfl]. kp.
    - unfold p1. apply D_setn, D_setz.
      match goal with |- D A ?a ?b ?c (setpfl ?x _) => assert (Y : D A a b c x) by dset end.
      exact (keeps_D _ _ _ _ _ (keeps_setpfl _ _) Y). }
  destruct P1 as (K1 & D1 & F1 & L1 & G1 & G2). clearbody p1.
  unfold script_gme. destruct (n_div (n_Z 314) (n_lit 1793 10)) as [t|e] eqn:Et; [|cbn; apply EN, (nm_div _ N _ _ _ Et)].
  cbn [bind]. destruct (m_exp t) as [ex|e] eqn:Ee; [|cbn; apply EN, (nm_exp _ N _ _ Ee)]. cbn [bind].
  set (p2 := setn _ GME _).
  assert (P2 : keeps p p2 /\ D A ([WN; ENS; GME] ++ path_keys) [IPOL; KLIM; LVAR; KWX] [] p2 /\ ppfl p2 = Some f /\
    pz p2 LVAR = Some 5 /\ pn p2 HG0 = pn p HG0 /\ pn p2 HG1 = pn p HG1 /\
    pn p2 GME = Some (n_lit 157 1000000000 * (n_Z 1 - n_lit 4665 100000 * ex))%num).
  { split; [|split; [|split; [|split; [|split; [|split]]]]]; try reflexivity; try assumption.
    - unfold p2. kp.
    - unfold p2. dset. }
  destruct P2 as (K2 & D2 & F2 & L2 & G3 & G4 & G5). clearbody p2. clear K1 D1 F1 L1 G1 G2.
  sgo N EN.
  set (p4 := setz _ MDVARX 11).
  assert (P4 : p2p_ready p p4 f /\ pn p4 GME = pn p2 GME).
  { split; [|reflexivity]. split; [unfold p4; kp|]. split; [unfold p4; dset|]. split; [|split; [exact F2 | split; assumption]].
    right. right. exists 11, 5. unfold p4. cbn [pz setz setn zkey_eqb zkey_id Pos.eqb]. repeat split; try lia; try assumption.
    exact (D_z _ _ _ _ _ KLIM D2 eq_refl). }
  destruct P4 as (P4 & G6). clearbody p4.
  eapply safe_conseq; [apply safe_qlrpfl'|].
  - eapply G; try reflexivity; try eassumption; [rewrite G6; exact G5|]. exists ex, t. auto.
  - exact (proj1 (proj2 P4)).
  - destruct P4 as (_ & _ & _ & X & _). rewrite X. discriminate.
  - intros q (K & L & X & S). destruct P4 as (K4 & D4 & SR & F4 & _). split; [exact (keeps_trans _ _ _ K4 K)|].
    split; [|split; [exact X | apply K; rewrite F4; discriminate]].
    split; [exact L|]. split; [pose proof (keeps_D _ _ _ _ _ K D4) as Y; dsub Y | apply S; right; exact SR].
Qed.

Lemma safe_p2p z p : D A path_keys [IPOL] [] p ->
  (forall d f q g, pn p DKM = Some d -> p2p_profile A d z = Ok f -> p2p_ready p q f ->
     pn q GME = Some g -> (exists e t, n_div (n_Z 314) (n_lit 1793 10) = Ok t /\ m_exp t = Ok e /\
       g = (n_lit 157 1000000000 * (n_Z 1 - n_lit 4665 100000 * e))%num) -> geom_ok q) ->
  ok (itmlogic_p2p A z p).
Proof.
  intros H G. unfold itmlogic_p2p.
  eapply safe_bind; [apply (safe_num0 _ _ EN), on_mapM; intros; apply (nm_div _ N)|]. intros qr _. sstep N EN.
  eapply safe_bind; [apply (safe_num0 _ _ EN), on_mapM; intros; apply (nm_div _ N)|]. intros qc _. sstep N EN.
  eapply safe_bind; [apply safe_prepare; assumption|]. intros q (K & I & X & F).
  pose proof (proj1 (proj1 I)) as DL. pose proof (keeps_D _ _ _ _ _ K H) as DQ.
  sgo N EN. unfold getpfl. destruct (ppfl q) as [f|]; [|congruence]. cbn [opt_res bind].
  eapply safe_bind; [apply safe_classify; [exact (proj1 I) | exact X]|]. intros (kind & mode) _.
  sgo N EN. eapply safe_bind; [apply (safe_p2p_table E EN), I|]. intros rows _. exact Logic.I.
Qed.

(** ** The antenna-height loop of pimter.py *)
Definition pim_inv (p : prop A) : Prop := D A (ZGR :: ZGI :: [HG0; WN; ENS; GME]) [KLIM] [] p /\ ppfl p <> None.
Lemma safe_pimter_loop fm zr zc tx : E IndexError = true -> forall p, pim_inv p -> ok (pimter_loop A fm zr zc tx p).
Proof.
  intros EI. induction tx as [|hg tx IH]; intros p [H F]; cbn [pimter_loop]; [exact I|].
  set (p1 := setz _ MDVARX 11).
  assert (P1 : keeps p p1 /\ D A path_caller control_caller [] p1 /\ statistics_requested p1 /\ ppfl p1 = ppfl p).
  { split; [unfold p1; kp|]. split; [unfold p1; dset|]. split; [|reflexivity].
    right. right. exists 11, 5. unfold p1. cbn [pz setz setn zkey_eqb zkey_id Pos.eqb]. repeat split; try lia.
    exact (D_z _ _ _ _ _ KLIM H eq_refl). }
  destruct P1 as (K1 & D1 & SR & F1). clearbody p1.
  eapply safe_bind; [apply safe_qlrpfl'; [left; exact EI | exact D1 | rewrite F1; exact F]|].
  intros q (K & L & X & S). specialize (S (or_intror SR)).
  pose proof (proj1 L) as DL. sgo N EN.
  assert (IQ : ses_inv A q).
  { split; [exact L|]. split; [|exact S]. pose proof (keeps_D _ _ _ _ _ K D1) as Y. dsub Y. }
  eapply safe_bind; [apply (safe_avar A N E EN), (ses_avar_ready A q IQ)|]. intros (a & r) [K2 _]. cbn [snd] in K2.
  pose proof (keeps_trans _ _ _ K1 (keeps_trans _ _ _ K K2)) as K3.
  eapply safe_bind; [apply IH|].
  - split; [exact (keeps_D _ _ _ _ _ K3 H) | apply K3, F].
  - intros rest _. exact I.
Qed.
Lemma safe_run t d : E IndexError = true -> ok (run_itmlogic A t d).
Proof.
  intros EI. unfold run_itmlogic, pimter_dev. sgo N EN.
  eapply safe_bind with (P := fun r => pim_inv (snd r)).
  { unfold pimter_prepare.
    eapply safe_bind; [apply safe_gme; exact EN|]. intros p (K & D1 & _).
    match type of K with keeps ?p1 p => assert (D2 : D A [] [KLIM] [] p1) by
      (split; [discriminate | split; [|discriminate]]; intros k Hk; apply memz_In in Hk; destruct Hk as [<- | []]; discriminate) end.
    pose proof (D_join _ _ _ _ _ _ _ _ K D2 D1) as D3. clear K D2.
    eapply safe_bind; [apply (ok_pyget E EI)|]. intros d1 _. eapply safe_bind; [apply (ok_pyget E EI)|]. intros d0 _.
    eapply safe_bind; [apply (ok_pyget E EI)|]. intros dl _. sgo N EN.
    cbn [snd]. split; [|discriminate].
    dset. }
  intros (fm & p) I. cbn [snd] in I. apply safe_pimter_loop; assumption.
Qed.
End E1.
End SafeScripts.

Lemma safe_idx0 {T} (m : res T) : safe idx m (fun _ => True) -> only_numeric_or_index m. Proof. apply safe_only_idx. Qed.

Lemma present_keys A ns zs (p : prop A) : present ns zs p -> D A ns zs [] p. Proof. apply present_D. Qed.

Lemma area_safe A c (p : prop A) : numeric A -> comparable A -> (forall a b d, area_grid A c <> Ok (a, None, b, d)) ->
  present [FMHZ; HG0; HG1; DH] [IPOL] p -> only_numeric (itmlogic_area_cfg A c p).
Proof.
  intros N C U P. apply present_keys in P. eapply safe_only, (safe_area A N C numeric_error (fun e H => H)); [right; exact U | dsub P].
Qed.
Lemma p2p_safe A z (p : prop A) : numeric A -> comparable A ->
  present [FMHZ; HG0; HG1; DKM] [IPOL] p -> only_numeric_or_index (itmlogic_p2p A z p).
Proof.
  intros N C P. apply present_keys in P. eapply safe_idx0, (safe_p2p A N C idx idx_num); [dsub P|].
  intros. left. reflexivity.
Qed.
Lemma pimter_safe A t d : numeric A -> comparable A -> only_numeric_or_index (run_itmlogic A t d).
Proof. intros N C. apply safe_idx0, (safe_run A N C idx idx_num). reflexivity. Qed.

Open Scope R_scope.
Lemma gme_pos e : (exists t, n_div (n_Z 314 : num RA) (n_lit 1793 10) = Ok t /\ m_exp t = Ok e) ->
  0 < (@n_lit RA 157 1000000000 * (@n_Z RA 1 - @n_lit RA 4665 100000 * e))%num.
Proof.
  intros (t & Ht & He). cbn in Ht, He |- *. unfold r_div in Ht. destruct (Req_EM_T (1793 / 10) 0); [lra|].
  injection Ht as <-. injection He as <-. interval with (i_prec 53).
Qed.
Lemma p2p_safe_real z (p : prop RA) (h0 h1 d : R) : present [FMHZ; HG0; HG1; DKM] [IPOL] p -> (1 <= length z)%nat ->
  pn p HG0 = Some h0 -> pn p HG1 = Some h1 -> pn p DKM = Some d -> 0 < h0 -> 0 < h1 -> 0 < d -> only_numeric (itmlogic_p2p RA z p).
Proof.
  intros P Lz E0 E1 Ed H0 H1 Hd. apply present_keys in P.
  eapply safe_only, (safe_p2p RA numeric_RA comparable_RA numeric_error (fun e H => H)); [dsub P|].
  intros d' f q g Ed' Ef (K & Dq & _ & Fq & G0 & G1) Eg (e & t & Ht & He & Hg). right.
  rewrite Ed in Ed'. injection Ed' as <-.
  apply (pfl_total q f (fun k => match k with HG0 => h0 | HG1 => h1 | _ => g end)).
  assert (Hp : 0 < g) by (subst g; apply gme_pos; exists t; auto).
  split; [exact Fq|]. split; [|split; [|repeat split; assumption]].
  - unfold p2p_profile in Ef. cbn [n_leb RA] in Ef. unfold r_leb in Ef. destruct (Rle_dec d (@n_Z RA 0)); [cbn in *; lra|].
    destruct (Z.eqb_spec (Z.of_nat (length z) - 1) 0) as [|Z0]; [discriminate|].
    revert Ef. cbn. unfold r_div. destruct (Req_EM_T _ 0) as [|NZ]; [discriminate|]. cbn [bind]. intros X. injection X as <-.
    unfold well_formed. cbn. change (num RA) with R in *. split; [lia|]. split; [|lia].
    apply Rdiv_lt_0_compat; [lra|]. apply IZR_lt. lia.
  - intros k Hk. cbn in Hk. destruct Hk as [<- | [<- | [<- | []]]]; cbv iota; first [rewrite G0; exact E0 | rewrite G1; exact E1 | exact Eg].
Qed.
Lemma area_default_safe (p : prop RA) : present [FMHZ; HG0; HG1; DH] [IPOL] p -> only_numeric (itmlogic_area RA p).
Proof.
  intros P. apply (area_safe RA); [exact numeric_RA | exact comparable_RA | | exact P].
  intros a b d. unfold area_grid. cbn. unfold r_leb.
  destruct (Rle_dec 10 0); [lra|]. cbn iota. destruct (Rle_dec 10 0); [lra|]. cbn iota.
  destruct (Rle_dec 150 10); [lra|]. cbn. unfold r_div. destruct (Req_EM_T 10 0); [lra|]. cbn [bind].
  destruct (Rle_dec 50 0); [lra|]. destruct (Req_EM_T 50 0); [lra|].
  destruct (Rle_dec 500 _); cbn; discriminate.
Qed.
