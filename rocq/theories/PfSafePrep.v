(** Definition before use: area and path preparation, sessions. *)
From Verif Require Import SpecSafe PfSafe PfSafeLr PfFrame PfLrGen Scripts.
Close Scope R_scope.
Open Scope Z_scope.

Ltac kp := repeat first [apply keeps_setn | apply keeps_setz | apply keeps_setb | apply keeps_refl | assumption].

Section Idx.
Context (A : arith) (N : numeric A) (E : exn -> bool) (EN : forall e, numeric_error e = true -> E e = true).
Context (EI : E IndexError = true).
Notation ok m := (safe E m (fun _ => True)).

Lemma ok_bind {S T} (m : res S) (k : S -> res T) : ok m -> (forall x, ok (k x)) -> ok (bind m k).
Proof. intros H K. eapply safe_bind; [exact H|]. intros x _. apply K. Qed.
Lemma ok_num {S} (m : res S) : only_numeric m -> ok m. Proof. apply safe_num0, EN. Qed.
Lemma ok_pyget {S} (l : list S) i : ok (pyget l i).
Proof. unfold pyget. destruct (_ || _); [exact EI|]. destruct (nth_error _ _); [exact I | exact EI]. Qed.
Lemma ok_pfl (f : profile A) i : ok (pflget f i). Proof. apply ok_pyget. Qed.
Ltac oi :=
  repeat lazymatch goal with
  | |- safe _ (Ok _) _ => exact I
  | |- safe _ (Err IndexError) _ => exact EI
  | |- safe _ (bind _ _) _ => apply ok_bind; [|intros ?]
  | |- safe _ (pyget _ _) _ => apply ok_pyget
  | |- safe _ (pflget _ _) _ => apply ok_pyget
  | |- safe _ (let (_, _) := ?x in _) _ => destruct x
  | |- safe _ (if ?b then _ else _) _ => destruct b
  | |- safe _ _ _ => first [ assumption | solve [apply ok_num; ospec N] ]
  end.
Lemma ok_window f a b : ok (zlsq1_window A f a b). Proof. unfold zlsq1_window. oi. Qed.
Lemma ok_zloop f n : forall ja x a b, ok (zlsq1_loop A f n ja x a b).
Proof. induction n; intros; cbn [zlsq1_loop]; oi. apply IHn. Qed.
Lemma ok_avoid n d : ok (avoid_zero_division A n d). Proof. unfold avoid_zero_division. oi. Qed.
Lemma ok_zlsq1 f a b : ok (zlsq1 A f a b).
Proof. unfold zlsq1. apply ok_bind; [apply ok_window | intros (ja & jb)]. oi; [apply ok_zloop | apply ok_avoid]. Qed.
Lemma ok_sample f k x : ok (dlthx_sample A f k x). Proof. unfold dlthx_sample. oi. Qed.
Lemma ok_dloop f n : forall a b k, ok (dlthx_loop A f n a b k).
Proof.
  induction n; intros; cbn [dlthx_loop]; [oi|]. destruct (dlthx_while A _ _ _ _). oi; [apply ok_sample | apply IHn].
Qed.
Lemma ok_dlthx f a b : ok (dlthx A f a b).
Proof. unfold dlthx, qtile. oi; [apply ok_dloop | apply ok_zlsq1]. Qed.
Lemma ok_hstep a b c d s z : ok (hzns_step A a b c d s z). Proof. unfold hzns_step. oi. Qed.
Lemma ok_hloop f a b c d n : forall i s, ok (hzns_loop A f a b c d n i s).
Proof. induction n; intros; cbn [hzns_loop]; oi; [apply ok_hstep | apply IHn]. Qed.
Lemma ok_hzns f a b c d : ok (hzns A f a b c d).
Proof. unfold hzns. oi. apply ok_hloop. Qed.
Lemma ok_los f a b c d e g h : ok (qlrpfl_los A f a b c d e g h).
Proof.
  pose proof (on_dl_smooth A N) as X. pose proof (on_the_smooth A N) as Y.
  unfold qlrpfl_los. oi; try apply ok_zlsq1; try (apply ok_num; apply X); try (apply ok_num; apply Y).
Qed.
Lemma ok_obs f a b c d e g h : ok (qlrpfl_obs A f a b c d e g h).
Proof. unfold qlrpfl_obs. oi; apply ok_zlsq1. Qed.

Definition pth_n : list nkey := [HG0; HG1; GME].
Definition prp_n : list nkey := [HE0; HE1; DL0; DL1; THE0; THE1].
Lemma safe_geometry p : D A pth_n [] [] p -> ppfl p <> None ->
  safe E (qlrpfl_geom A p) (fun q => keeps p q /\ D A ([DIST; DH] ++ prp_n) [] [] q /\ pz q = pz p).
Proof.
  intros H F. unfold qlrpfl_geom, getpfl. destruct (ppfl p) as [f|]; [|congruence]. cbn [opt_res bind].
  do 3 sstep N EN.
  eapply safe_bind; [apply ok_hzns|]. intros (((t0 & t1) & d0) & d1) _.
  eapply safe_bind; [apply ok_dlthx|]. intros dh _.
  eapply safe_bind with (P := fun _ => True).
  { destruct (_ <=? _)%num; [apply ok_los|]. eapply safe_bind; [apply ok_obs|]. intros; exact I. }
  intros (((h0 & h1) & (e0 & e1)) & (g0 & g1)) _. cbn [safe].
  split; [kp | split; [dset | reflexivity]].
Qed.
End Idx.

Section Ctl.
Context (A : arith) (N : numeric A) (E : exn -> bool) (EN : forall e, numeric_error e = true -> E e = true).
(** A full refresh pending (then avar finds everything), or the statistics of an earlier call. *)
Definition pending (p : prop A) : Prop := (exists lv, pz p LVAR = Some lv /\ 4 < lv) \/ av_done A p.
Definition stat_in (p : prop A) : Prop := D A [] [KLIM; MDVAR] [] p /\ pending p.

Lemma safe_control m p : D A [] control_caller [] p ->
  safe E (prep_control A m p) (fun q => keeps p q /\ pz q MDP = Some m /\ pn q = pn p /\ pb q = pb p /\
     (stat_in p \/ statistics_requested p -> stat_in q)).
Proof.
  intros H. unfold prep_control.
  assert (LV : exists lv, pz p LVAR = Some lv).
  { destruct (pz p LVAR) eqn:X; [eauto|]. exfalso. apply (D_z _ _ _ _ _ LVAR H eq_refl), X. }
  destruct LV as [lv LV]. unfold getz at 1. cbn [pz setz]. change (zkey_eqb MDP LVAR) with false. cbv iota. rewrite LV. cbn [opt_res bind].
  apply safe_getz; [hask|]. intros mv Emv.
  eapply safe_bind with (P := fun q => keeps p q /\ pz q MDP = Some m /\ pn q = pn p /\ pb q = pb p /\ pz q KLIMX = pz p KLIMX /\
    (exists lv', pz q LVAR = Some lv' /\ lv <= lv') /\ (0 <= mv -> pz q MDVAR <> None) /\ (pz q KLIM = pz p KLIM)).
  { destruct (0 <=? mv) eqn:C.
    - unfold getz. cbn [pz setz]. change (zkey_eqb MDVAR LVAR) with false. change (zkey_eqb LVAR LVAR) with true. cbv iota. cbn [opt_res bind safe].
      repeat split; try reflexivity; try (cbn; discriminate); try (apply keeps_setz, keeps_setz, keeps_setz, keeps_setz, keeps_refl).
      eexists. split; [reflexivity | lia].
    - cbn [safe]. repeat split; try reflexivity; try (apply keeps_setz, keeps_setz, keeps_refl); try lia.
      eexists. split; [reflexivity | lia]. }
  intros q (K & M & Pn & Pb & KX & (lv' & L' & Ll) & MV & KL).
  apply safe_getz; [rewrite KX; hask|]. intros kx Ekx. rewrite KX in Ekx.
  assert (Emv' : pz p MDVARX = Some mv) by exact Emv.
  assert (F1 : av_done A p -> av_done A q) by (intro X; exact (keeps_D _ _ _ _ _ K X)).
  assert (R : pz q MDVAR <> None \/ pz p MDVAR = None /\ mv < 0).
  { destruct (pz p MDVAR) eqn:Q; [left; apply K; congruence|]. destruct (Z_lt_le_dec mv 0) as [G|G]; [right; auto | left; apply MV; exact G]. }
  destruct (0 <? kx) eqn:C; cbn [safe].
  - split; [apply keeps_setz, keeps_setz, K|]. split; [exact M|]. split; [exact Pn|]. split; [exact Pb|].
    intros G. split; [|left; eexists; split; [reflexivity | lia]].
    assert (pz q MDVAR <> None).
    { destruct R as [R | [R1 R2]]; [exact R|]. exfalso. destruct G as [[(_ & G & _) _] | G].
      - apply (G MDVAR eq_refl), R1.
      - destruct G as [(? & ? & a & b & ?) | [(? & a & ?) | (? & ? & a & b & ?)]]; try congruence; rewrite a in Emv'; injection Emv' as ->; lia. }
    split; [discriminate | split; [|discriminate]]. intros z Hz. apply memz_In in Hz. cbn in Hz.
    destruct Hz as [<- | [<- | []]]; cbn; [discriminate | assumption].
  - split; [exact K|]. split; [exact M|]. split; [exact Pn|]. split; [exact Pb|].
    intros G.
    assert (Q : pz q KLIM <> None /\ pz q MDVAR <> None /\ pending q).
    { destruct G as [[(_ & G & _) [(l0 & e & b) | P]] | G].
      - rewrite KL. split; [apply (G KLIM eq_refl)|]. split; [apply K, (G MDVAR eq_refl)|]. left. exists lv'. split; [exact L'|]. assert (l0 = lv) by congruence. lia.
      - rewrite KL. split; [apply (G KLIM eq_refl)|]. split; [apply K, (G MDVAR eq_refl)|]. right. apply F1, P.
      - destruct G as [(a0 & k & a & b & c & d) | [(l0 & a & b & c & d) | (m0 & l0 & a & b & c & d & e)]].
        + exfalso. rewrite c in Ekx. injection Ekx as ->. apply Z.ltb_ge in C. lia.
        + rewrite KL. split; [exact b|]. split; [apply K, a|]. left. exists lv'. split; [exact L'|]. assert (l0 = lv) by congruence. lia.
        + rewrite KL. split; [exact c|]. split; [apply MV; assert (m0 = mv) by congruence; lia|]. left. exists lv'. split; [exact L'|]. assert (l0 = lv) by congruence. lia. }
    destruct Q as (Q1 & Q2 & Q3). split; [|exact Q3]. split; [discriminate | split; [|discriminate]]. intros z Hz. apply memz_In in Hz. cbn in Hz.
    destruct Hz as [<- | [<- | []]]; assumption.
Qed.

Definition are_n : list nkey := [HG0; HG1; DH; GME].
Lemma safe_qlra k0 k1 p : D A are_n control_caller [] p ->
  safe E (qlra A k0 k1 p) (fun q => keeps p q /\ D A prp_n [MDP] [] q /\ pz q MDP = Some 1 /\ pb q = pb p /\
     (stat_in p \/ statistics_requested p -> stat_in q)).
Proof.
  intros H. unfold qlra. sgo N EN.
  set (p' := setn _ THE1 _).
  assert (K : keeps p p') by (unfold p'; kp). assert (H' : D A prp_n [] [] p') by (unfold p'; dset).
  assert (B : pb p' = pb p /\ pz p' = pz p) by (split; reflexivity). clearbody p'. destruct B as [B Z].
  pose proof (keeps_D _ _ _ _ _ K H) as H2.
  eapply safe_conseq; [apply safe_control; dsub H2|]. intros q (K2 & M & Pn & Pb & S).
  pose proof (keeps_trans _ _ _ K K2) as K3. pose proof (keeps_D _ _ _ _ _ K2 H') as H3.
  split; [exact K3|]. split; [|split; [exact M | split; [congruence|]]].
  - destruct H3 as (a & b & c). split; [exact a | split; [|exact c]]. intros z Hz. apply memz_In in Hz. destruct Hz as [<- | []]. congruence.
  - intros G. apply S. destruct G as [[G1 G2] | G].
    + left. split; [exact (keeps_D _ _ _ _ _ K G1)|]. destruct G2 as [G2 | G2]; [left; rewrite Z; exact G2 | right; exact (keeps_D _ _ _ _ _ K G2)].
    + right. unfold statistics_requested in *. rewrite Z. exact G.
Qed.


Lemma stat_keep p q : keeps p q -> pz q LVAR = pz p LVAR -> stat_in p -> stat_in q.
Proof.
  intros K L [G1 G2]. split; [exact (keeps_D _ _ _ _ _ K G1)|].
  destruct G2 as [G2 | G2]; [left; rewrite L; exact G2 | right; exact (keeps_D _ _ _ _ _ K G2)].
Qed.
Lemma lrprop_lvar d p q : lrprop A d p = Ok q -> pz q LVAR = pz p LVAR.
Proof. intros H. apply lrprop_frame in H. destruct H as (_ & F & _). apply F, memz_nIn. reflexivity. Qed.
Lemma safe_lrprop_stat d p : lr_ready A p -> (pn p AREF <> None \/ (comparable A /\ pz p MDP <> Some 0) \/ E KeyError = true) ->
  safe E (lrprop A d p) (fun q => keeps p q /\ lr_done A q /\ dx_ok A q /\ (stat_in p -> stat_in q)).
Proof.
  intros R C. pose proof (safe_lrprop A N E EN d p R C) as S. pose proof (lrprop_lvar d p) as L.
  destruct (lrprop A d p) as [q|e]; [|exact S]. destruct S as [K [Dn X]]. cbn [safe].
  split; [exact K | split; [exact Dn | split; [exact X|]]]. apply stat_keep; [exact K | apply L; reflexivity].
Qed.
Lemma done_ready p : lr_done A p -> lr_ready A p /\ pn p AREF <> None.
Proof.
  intros [H W]. split; [|apply (D_n _ _ _ _ _ AREF H eq_refl)].
  split; [dsub H|]. intros m Em. split; intros Hm.
  - split; [dsub H | exact W].
  - apply (D_n _ _ _ _ _ DIST H eq_refl).
Qed.
(** Ready for lrprop after a preparation: effective heights and horizons there, a mode other than continuing. *)
Lemma prep_ready m p : D A (prp_n ++ area_caller) [KWX] [] p -> pz p MDP = Some m -> m <> 0 -> (m < 0 -> pn p DIST <> None) -> lr_ready A p.
Proof.
  intros H M Z0 X. split.
  - destruct H as (a & b & c). split; [|split; [|discriminate]].
    + intros k Hk. apply a. revert Hk. destruct k; vm_compute; congruence.
    + intros z Hz. apply memz_In in Hz. destruct Hz as [<- | [<- | []]]; [congruence | apply b; reflexivity].
  - intros m' Em. rewrite M in Em. injection Em as <-. split; [intro; contradiction | exact X].
Qed.

Lemma safe_qlrpfl (EI : E IndexError = true) p : D A path_caller control_caller [] p -> ppfl p <> None -> (pn p AREF <> None \/ comparable A \/ E KeyError = true) ->
  safe E (qlrpfl A p) (fun q => keeps p q /\ lr_done A q /\ dx_ok A q /\ (stat_in p \/ statistics_requested p -> stat_in q)).
Proof.
  intros H F C. unfold qlrpfl.
  eapply safe_bind; [apply (safe_geometry A N E EN EI); [dsub H | exact F]|]. intros q (K & Dq & Zq).
  pose proof (D_join _ _ _ _ _ _ _ _ K H Dq) as D1.
  eapply safe_bind; [apply (safe_control (-1)); dsub D1|]. intros r (Kr & M & Pn & Pb & S).
  pose proof (keeps_D _ _ _ _ _ Kr D1) as D2.
  eapply safe_conseq; [apply safe_lrprop_stat|].
  - apply (prep_ready (-1)); [dsub D2 | exact M | lia | intros _; apply (D_n _ _ _ _ _ DIST D2 eq_refl)].
  - destruct C as [C | [C | C]]; [left; apply Kr, K, C | right; left; split; [exact C | rewrite M; discriminate] | right; right; exact C].
  - intros s (Ks & L & X & T). split; [exact (keeps_trans _ _ _ K (keeps_trans _ _ _ Kr Ks))|]. split; [exact L|]. split; [exact X|].
    intros G. apply T, S. destruct G as [G | G].
    + left. apply (stat_keep p q K); [rewrite Zq; reflexivity | exact G].
    + right. unfold statistics_requested in *. rewrite Zq. exact G.
Qed.

(** Invariant of a session. *)
Definition ses_inv (p : prop A) : Prop := lr_done A p /\ D A [] control_caller [] p /\ stat_in p.
Lemma ses_avar_ready p : ses_inv p -> av_ready A p.
Proof.
  intros ([L W] & C & [G P]). split; [|exact P]. pose proof (D_app _ _ _ _ _ _ _ L (D_app _ _ _ _ _ _ _ C G)) as X. dsub X.
Qed.
Lemma wsc_keep p q : keeps p q -> pb q WSCAT = pb p WSCAT -> wsc A p -> wsc A q.
Proof. intros K B W X. rewrite B in X. exact (keeps_D _ _ _ _ _ K (W X)). Qed.
Lemma done_keep p q : keeps p q -> pb q WSCAT = pb p WSCAT -> lr_done A p -> lr_done A q.
Proof. intros K B [L W]. split; [exact (keeps_D _ _ _ _ _ K L) | exact (wsc_keep p q K B W)]. Qed.
Lemma inv_edit p q : edit p q -> ses_inv p -> ses_inv q.
Proof.
  intros (e1 & e2 & e3 & e4 & e5 & e6) (L & C & [G P]).
  assert (K : keeps p q) by (repeat split; assumption).
  split; [exact (done_keep p q K e5 L) | split; [exact (keeps_D _ _ _ _ _ K C)|]].
  split; [exact (keeps_D _ _ _ _ _ K G)|].
  destruct P as [(lv & a & b) | P]; [|right; exact (keeps_D _ _ _ _ _ K P)].
  left. assert (Q : pz q LVAR <> None) by (apply e2; congruence).
  destruct (pz q LVAR) as [lv'|]; [|congruence]. exists lv'. split; [reflexivity|]. specialize (e6 _ _ a eq_refl). lia.
Qed.
Lemma inv_lrprop d p q : lrprop A d p = Ok q -> ses_inv p -> ses_inv q.
Proof.
  intros H (L & C & G). destruct (done_ready p L) as [R AR].
  pose proof (safe_lrprop_stat d p R (or_introl AR)) as S. rewrite H in S. destruct S as (K & L2 & _ & S).
  split; [exact L2 | split; [exact (keeps_D _ _ _ _ _ K C) | exact (S G)]].
Qed.
Lemma inv_avar t l c p a q : avar A t l c p = Ok (a, q) -> ses_inv p -> ses_inv q.
Proof.
  intros H I. pose proof (safe_avar A N E EN t l c p (ses_avar_ready p I)) as S. rewrite H in S. destruct S as (K & V). cbn [snd] in *.
  assert (B : pb q WSCAT = pb p WSCAT).
  { pose proof (avar_frame A t l c p _ H) as F. cbn [snd] in F. destruct F as (_ & _ & F & _). apply F. intros [X | [X | []]]; discriminate. }
  destruct I as (L & C & [G P]). split; [exact (done_keep p q K B L) | split; [exact (keeps_D _ _ _ _ _ K C)|]].
  split; [exact (keeps_D _ _ _ _ _ K G) | right; exact V].
Qed.
Lemma done_are p : lr_done A p -> D A [] control_caller [] p -> D A are_n control_caller [] p.
Proof. intros [L _] C. pose proof (D_app _ _ _ _ _ _ _ L C) as X. dsub X. Qed.
Lemma done_path p : lr_done A p -> D A [] control_caller [] p -> D A path_caller control_caller [] p.
Proof. intros [L _] C. pose proof (D_app _ _ _ _ _ _ _ L C) as X. dsub X. Qed.
Lemma inv_qlra k0 k1 p q : qlra A k0 k1 p = Ok q -> ses_inv p -> ses_inv q.
Proof.
  intros H (L & C & G). pose proof (safe_qlra k0 k1 p (done_are p L C)) as S. rewrite H in S.
  destruct S as (K & _ & _ & B & S). split; [apply (done_keep p q K); [rewrite B; reflexivity | exact L]|].
  split; [exact (keeps_D _ _ _ _ _ K C) | apply S; left; exact G].
Qed.
End Ctl.

Section Session.
Context (A : arith) (N : numeric A).
Definition idx (e : exn) : bool := numeric_error e || match e with IndexError => true | _ => false end.
Lemma idx_num e : numeric_error e = true -> idx e = true. Proof. intros H. unfold idx. rewrite H. reflexivity. Qed.
Lemma num_num e : numeric_error e = true -> numeric_error e = true. Proof. exact (fun H => H). Qed.
Lemma inv_qlrpfl p q : qlrpfl A p = Ok q -> ses_inv A p -> ses_inv A q.
Proof.
  intros H (L & C & G). assert (F : ppfl p <> None).
  { intro F. unfold qlrpfl, qlrpfl_geom, getpfl in H. rewrite F in H. discriminate. }
  pose proof (safe_qlrpfl A N idx idx_num eq_refl p (done_path A p L C) F (or_introl (proj2 (done_ready A p L)))) as S.
  rewrite H in S. destruct S as (K & L2 & _ & S). split; [exact L2 | split; [exact (keeps_D _ _ _ _ _ K C) | apply S; left; exact G]].
Qed.
Lemma inv_session p q : session p q -> ses_inv A p -> ses_inv A q.
Proof.
  induction 1; intros I; auto; apply IHsession.
  - eapply inv_edit; eassumption.
  - eapply (inv_lrprop A N _ num_num); eassumption.
  - eapply (inv_avar A N _ num_num); eassumption.
  - eapply (inv_qlra A N _ num_num); eassumption.
  - eapply inv_qlrpfl; eassumption.
Qed.
Lemma safe_only {T} (m : res T) Q : safe numeric_error m Q -> only_numeric m.
Proof. intros H e X. rewrite X in H. exact H. Qed.
Lemma safe_only_idx {T} (m : res T) Q : safe idx m Q -> only_numeric_or_index m.
Proof. intros H e X. rewrite X in H. cbn [safe] in H. apply orb_prop in H. destruct H as [H | H]; [left; exact H | right; destruct e; congruence]. Qed.
Lemma present_D ns zs p : present ns zs p -> D A ns zs [] p.
Proof.
  intros [H1 H2]. split; [|split; [|discriminate]]; intros k Hk; [apply H1, memn_In, Hk | apply H2, memz_In, Hk].
Qed.

(** What is known of every state of a session. *)
Lemma inv_all p : ses_inv A p ->
  (forall d, only_numeric (lrprop A d p)) /\ (forall t l c, only_numeric (avar A t l c p)) /\
  (forall k0 k1, only_numeric (qlra A k0 k1 p)) /\ (ppfl p <> None -> only_numeric_or_index (qlrpfl A p)).
Proof.
  intros I. destruct I as (L & C & G). destruct (done_ready A p L) as [R AR]. repeat split.
  - intros d. exact (safe_only _ _ (safe_lrprop A N _ num_num d p R (or_introl AR))).
  - intros t l c. exact (safe_only _ _ (safe_avar A N _ num_num t l c p (ses_avar_ready A p (conj L (conj C G))))).
  - intros k0 k1. exact (safe_only _ _ (safe_qlra A N _ num_num k0 k1 p (done_are A p L C))).
  - intros F. exact (safe_only_idx _ _ (safe_qlrpfl A N idx idx_num eq_refl p (done_path A p L C) F (or_introl AR))).
Qed.

Lemma first_area k0 k1 p : present area_caller control_caller p -> only_numeric (qlra A k0 k1 p).
Proof. intros P. apply present_D in P. eapply safe_only, (safe_qlra A N _ num_num). dsub P. Qed.
Lemma first_lrprop k0 k1 d p q : comparable A -> present area_caller control_caller p -> qlra A k0 k1 p = Ok q -> only_numeric (lrprop A d q).
Proof.
  intros C P H. apply present_D in P. pose proof (safe_qlra A N _ num_num k0 k1 p ltac:(dsub P)) as S. rewrite H in S.
  destruct S as (K & D1 & M & B & _). pose proof (D_join _ _ _ _ _ _ _ _ K P D1) as D2.
  eapply safe_only, (safe_lrprop A N _ num_num).
  - apply (prep_ready A 1); [dsub D2 | exact M | lia | lia].
  - right. left. split; [exact C | rewrite M; discriminate].
Qed.
(** The first successful lrprop of an area prediction opens a session, in any arithmetic. *)
Lemma area_opens k0 k1 d p q r : present area_caller control_caller p -> statistics_requested p ->
  qlra A k0 k1 p = Ok q -> lrprop A d q = Ok r -> ses_inv A r.
Proof.
  intros P SR H H2. apply present_D in P. pose proof (safe_qlra A N _ num_num k0 k1 p ltac:(dsub P)) as S. rewrite H in S.
  destruct S as (K & D1 & M & B & S). specialize (S (or_intror SR)). pose proof (D_join _ _ _ _ _ _ _ _ K P D1) as D2.
  pose proof (safe_lrprop_stat A N (fun _ => true) (fun _ _ => eq_refl) d q) as S2. rewrite H2 in S2.
  destruct S2 as (K2 & L & _ & S2).
  - apply (prep_ready A 1); [dsub D2 | exact M | lia | lia].
  - right. right. reflexivity.
  - split; [exact L|]. split; [|exact (S2 S)]. pose proof (keeps_D _ _ _ _ _ K2 D2) as X. dsub X.
Qed.
Lemma path_first p : comparable A -> present path_caller control_caller p -> ppfl p <> None -> only_numeric_or_index (qlrpfl A p).
Proof.
  intros C P F. apply present_D in P. eapply safe_only_idx, (safe_qlrpfl A N idx idx_num eq_refl); [dsub P | exact F | right; left; exact C].
Qed.
Lemma path_opens p q : present path_caller control_caller p -> statistics_requested p -> qlrpfl A p = Ok q -> ses_inv A q.
Proof.
  intros P SR H. assert (F : ppfl p <> None).
  { intro F. unfold qlrpfl, qlrpfl_geom, getpfl in H. rewrite F in H. discriminate. }
  apply present_D in P. pose proof (safe_qlrpfl A N (fun _ => true) (fun _ _ => eq_refl) eq_refl p ltac:(dsub P) F) as S. rewrite H in S.
  destruct S as (K & L & _ & S); [right; right; reflexivity|].
  split; [exact L|]. split; [pose proof (keeps_D _ _ _ _ _ K P) as X; dsub X | apply S; right; exact SR].
Qed.
End Session.
