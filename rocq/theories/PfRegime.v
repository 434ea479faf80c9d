(** Proofs about the three regimes of lrprop over the reals. *)
From Verif Require Import Frame SpecLr SpecRegime Scripts PfFrame PfLrGen PfArea.
Open Scope R_scope.

Lemma pymax_R (a b : R) : @pymax RA a b = Rmax a b.
Proof. unfold pymax. runfold. unfold r_ltb, Rmax. destruct (Rlt_dec a b), (Rle_dec a b); lra. Qed.
Lemma pymin_R (a b : R) : @pymin RA a b = Rmin a b.
Proof. unfold pymin. runfold. unfold r_ltb, Rmin. destruct (Rlt_dec b a), (Rle_dec a b); lra. Qed.
Lemma lit_R n d : @n_lit RA n d = IZR n / IZR (Zpos d).
Proof. reflexivity. Qed.

(** What the line-of-sight fit returns. *)
Lemma lr_fit_inv (aed emd d0 d1 d2 a1 a2 : R) p c : lr_fit RA aed emd d0 d1 d2 a1 a2 p = Ok c ->
  match c with
  | None => ~ d0 < d1 \/ (aed < 0)
  | Some (k1, k2) => d0 < d1 /\ exists a0 f : R, alos RA d0 p = Ok a0 /\ 0 < d2 / d0 /\ 0 < d1 / d0 /\
      (d2 - d0) * ln (d1 / d0) - (d1 - d0) * ln (d2 / d0) <> 0 /\
      f = ((d2 - d0) * (a1 - a0) - (d1 - d0) * (a2 - a0)) / ((d2 - d0) * ln (d1 / d0) - (d1 - d0) * ln (d2 / d0)) /\
      d2 - d0 <> 0 /\
      let u2 := Rmax 0 f in let u1 := (a2 - a0 - u2 * ln (d2 / d0)) / (d2 - d0) in
      ((0 <= u1 /\ k1 = u1 /\ k2 = u2) \/
       (u1 < 0 /\ ln (d2 / d0) <> 0 /\ k2 = Rmax (a2 - a0) 0 / ln (d2 / d0) /\
        ((k2 = 0 /\ k1 = emd) \/ (k2 <> 0 /\ k1 = 0))))
  end.
Proof.
  intro H. unfold lr_fit in H. cbn [n_ltb RA] in H. destruct (r_ltb d0 d1) eqn:B; rbool.
  2:{ inversion H; subst. left. lra. }
  apply bind_inv in H as [a0 [Ea H]]. apply bind_inv in H as [t [Et H]]. apply bind_inv in H as [q [Eq H]].
  apply bind_inv in H as [t' [Et' H]]. apply bind_inv in H as [l [El H]]. apply bind_inv in H as [f [Ef H]].
  cbn [n_div np_log RA n_sub n_mul] in Et, Eq, Et', El, Ef.
  apply r_div_inv in Et as [D0 ->]. apply r_log_inv in Eq as [Pq ->]. apply r_div_inv in Et' as [_ ->].
  apply r_log_inv in El as [Pl ->]. apply r_div_inv in Ef as [Df Ef].
  rewrite !pymax_R in H. cbn [n_Z RA n_leb n_ltb] in H.
  match type of H with (if ?b then _ else _) = _ => destruct b eqn:W end.
  2:{ inversion H; subst. right. apply orb_false_elim in W as [W _]. rbool. assumption. }
  clear W.
  apply bind_inv in H as [k1 [E1 H]]. cbn [n_div RA n_sub n_mul] in E1. apply r_div_inv in E1 as [D2 E1].
  destruct (r_ltb k1 0) eqn:K; rbool.
  - apply bind_inv in H as [k2 [E2 H]]. cbn [n_div RA] in E2. apply r_div_inv in E2 as [D3 E2].
    cbn [n_eqb RA] in H.
    destruct (r_eqb k2 0) eqn:K2; rbool; inversion H; subst; clear H; (split; [assumption|]);
      exists a0; eexists; repeat (split; [first [eassumption | reflexivity]|]); right;
      (split; [exact K|]); (split; [exact D3|]); (split; [reflexivity|]).
    + left. split; [exact K2 | reflexivity].
    + right. split; [exact K2 | reflexivity].
  - inversion H; subst; clear H. split; [assumption|]. exists a0; eexists; repeat (split; [first [eassumption | reflexivity]|]).
    left. split; [exact K|]. split; reflexivity.
Qed.

Section Coeffs.
Context (p : prop RA) (k1 k2 ael : R).
Hypothesis H : lr_los_coeffs RA p = Ok (k1, k2, ael).
Lemma los_coeffs_inv : exists d2 aed emd wn he0 he1 dla a1 : R,
  pn p DLSA = Some d2 /\ pn p AED = Some aed /\ pn p EMD = Some emd /\ pn p WN = Some wn /\
  pn p HE0 = Some he0 /\ pn p HE1 = Some he1 /\ pn p DLA = Some dla /\
  (aed < 0 -> emd <> 0) /\ 0 < d2 /\
  let a2 := aed + d2 * emd in
  let d0 := los_d0 wn he0 he1 dla aed in
  let d1 := los_d1 wn he0 he1 dla aed emd in
  alos RA d1 p = Ok a1 /\ ael = a2 - k1 * d2 - k2 * ln d2 /\
  ((exists c, lr_fit RA aed emd d0 d1 d2 a1 a2 p = Ok (Some c) /\ c = (k1, k2)) \/
   (lr_fit RA aed emd d0 d1 d2 a1 a2 p = Ok None /\ k2 = 0 /\ d2 - d1 <> 0 /\
    let u := Rmax (a2 - a1) 0 / (d2 - d1) in ((u = 0 /\ k1 = emd) \/ (u <> 0 /\ k1 = u)))).
Proof.
  unfold lr_los_coeffs in H. revert H. intro G.
  apply bind_inv in G as [d2 [E1 G]]. apply bind_inv in G as [aed [E2 G]]. apply bind_inv in G as [emd [E3 G]].
  apply bind_inv in G as [wn [E4 G]]. apply bind_inv in G as [he0 [E5 G]]. apply bind_inv in G as [he1 [E6 G]].
  apply bind_inv in G as [dla [E7 G]]. apply bind_inv in G as [[d0 d1] [E8 G]].
  apply bind_inv in G as [a1 [E9 G]]. apply bind_inv in G as [fit [E10 G]].
  apply bind_inv in G as [[u1 u2] [E11 G]]. apply bind_inv in G as [l [E12 G]].
  cbn [RA n_add n_mul n_sub np_log n_leb n_Z n_opp n_div] in *. apply r_log_inv in E12 as [Pd ->].
  apply pn_getn in E1, E2, E3, E4, E5, E6, E7. inversion G; subst; clear G.
  assert (D : (aed < 0 -> emd <> 0) /\ d0 = los_d0 wn he0 he1 dla aed /\ d1 = los_d1 wn he0 he1 dla aed emd).
  { unfold los_d1, los_d0. rewrite !lit_R, ?pymin_R in E8. replace (1908 / 1000) with 1.908 in E8 by lra.
    replace (5 / 10) with 0.5 in E8 by lra. replace (25 / 100) with 0.25 in E8 by lra.
    destruct (r_leb 0 aed) eqn:B; rbool; destruct (Rle_dec 0 aed); try lra.
    - inversion E8; subst; clear E8. repeat split. intro; lra.
    - apply bind_inv in E8 as [t [Et E8]]. apply r_div_inv in Et as [N ->]. rewrite pymax_R in E8.
      inversion E8; subst; clear E8. repeat split. intros _. exact N. }
  destruct D as [D [D0 D1]]. subst d0 d1.
  exists d2, aed, emd, wn, he0, he1, dla, a1. do 7 (split; [assumption|]). split; [exact D|]. split; [exact Pd|].
  cbv zeta. split; [exact E9|]. split; [reflexivity|].
  destruct fit as [c|].
  - left. exists c. split; [exact E10|]. inversion E11. reflexivity.
  - right. split; [exact E10|]. apply bind_inv in E11 as [k [Ek E11]]. apply r_div_inv in Ek as [N Ek].
    rewrite pymax_R in Ek. cbn [n_eqb RA] in E11.
    destruct (r_eqb k 0) eqn:B; rbool; inversion E11; subst; (split; [reflexivity|]); (split; [exact N|]); [left|right]; auto.
Qed.
End Coeffs.

(** ** Joints of the three regimes *)
Definition los_joined (p : prop RA) : Prop := pb p WLOS = Some true ->
  exists c, los_entries p c /\ diff_entries p c /\ 0 < b_dlsa c /\ los_curve c (b_dlsa c) = diff_line c (b_dlsa c).
Definition scat_joined (p : prop RA) : Prop := pb p WSCAT = Some true ->
  exists c, diff_entries p c /\ scat_entries p c /\ scat_line c (b_dx c) = diff_line c (b_dx c) /\
    (b_dlsa c <= b_dx c \/ (b_aes c = b_aed c /\ b_ems c = b_emd c)).

Lemma fr_pn nk zk bk (p q : prop RA) k : same_except nk zk bk p q -> memn k nk = false -> pn q k = pn p k.
Proof. intros [F _] M. apply F. apply memn_nIn. exact M. Qed.
Lemma fr_pb nk zk bk (p q : prop RA) k : same_except nk zk bk p q -> memb k bk = false -> pb q k = pb p k.
Proof. intros [_ [_ [F _]]] M. apply F. apply memb_nIn. exact M. Qed.
Lemma fr_pz nk zk bk (p q : prop RA) k : same_except nk zk bk p q -> memz k zk = false -> pz q k = pz p k.
Proof. intros [_ [F _]] M. apply F. apply memz_nIn. exact M. Qed.

(** Read entries through a frame. *)
Ltac thru F := repeat match type of F with same_except _ _ _ _ ?q => match goal with
  | |- context [pn q ?k] => rewrite (fr_pn _ _ _ _ _ k F eq_refl)
  | |- context [pz q ?k] => rewrite (fr_pz _ _ _ _ _ k F eq_refl)
  | |- context [pb q ?k] => rewrite (fr_pb _ _ _ _ _ k F eq_refl) end end.
Lemma los_joined_frame nk zk bk p q : same_except nk zk bk p q -> memb WLOS bk = false ->
  forallb (fun k => negb (memn k nk)) [AEL; AK1; AK2; DLSA; AED; EMD] = true -> los_joined p -> los_joined q.
Proof.
  intros F B N J W. rewrite (fr_pb _ _ _ _ _ _ F B) in W. destruct (J W) as [c [[L1 [L2 L3]] [[D1 [D2 D3]] [P E]]]].
  cbn [forallb] in N. repeat (apply andb_true_iff in N; destruct N as [? N]).
  repeat match goal with H : negb _ = true |- _ => apply negb_true_iff in H end.
  exists c. repeat split; try (erewrite fr_pn by eassumption; assumption); assumption.
Qed.
Lemma scat_joined_frame nk zk bk p q : same_except nk zk bk p q -> memb WSCAT bk = false ->
  forallb (fun k => negb (memn k nk)) [DX; AES; EMS; DLSA; AED; EMD] = true -> scat_joined p -> scat_joined q.
Proof.
  intros F B N J W. rewrite (fr_pb _ _ _ _ _ _ F B) in W. destruct (J W) as [c [[L1 [L2 L3]] [[D1 [D2 D3]] [P E]]]].
  cbn [forallb] in N. repeat (apply andb_true_iff in N; destruct N as [? N]).
  repeat match goal with H : negb _ = true |- _ => apply negb_true_iff in H end.
  exists c. repeat split; try (erewrite fr_pn by eassumption; assumption); assumption.
Qed.

Lemma lr_los_joined p q : los_joined p -> lr_los RA p = Ok q -> los_joined q.
Proof.
  intros J H. unfold lr_los in H. apply bind_inv in H as [dist [Ed H]]. apply bind_inv in H as [dlsa [Es H]].
  cbn [n_ltb RA] in H. destruct (r_ltb dist dlsa); [|inversion H; subst; exact J].
  apply bind_inv in H as [w [Ew H]]. destruct w; [inversion H; subst; exact J|].
  apply bind_inv in H as [[[k1 k2] ael] [Ec H]].
  destruct (los_coeffs_inv p k1 k2 ael Ec) as
    (d2 & aed & emd & wn & he0 & he1 & dla & a1 & E1 & E2 & E3 & _ & _ & _ & _ & _ & Pd & _ & El & _).
  set (s := setb _ WLOS true) in H.
  assert (J' : forall r, same_except [AREF] [] [] s r -> los_joined r).
  { intros r F _. exists (Branches ael k1 k2 d2 aed emd 0 0 0).
    unfold los_entries, diff_entries, los_curve, diff_line. cbn [b_ael b_ak1 b_ak2 b_dlsa b_aed b_emd].
    thru F. split; [repeat split; reflexivity|]. split; [repeat split; assumption|].
    split; [exact Pd|]. rewrite El. ring. }
  destruct (r_ltb _ dist).
  - apply bind_inv in H as [l [_ H]]. inversion H; subst. apply J'. apply fr_setn; [reflexivity | apply fr_refl].
  - inversion H; subst. apply J'. apply fr_refl.
Qed.
Lemma lr_scat_setup_inv p q : lr_scat_setup RA p = Ok q -> exists aed emd dla : R, pn p AED = Some aed /\ pn p EMD = Some emd /\
  pn p DLA = Some dla /\ pb q WSCAT = Some true /\ exists dx aes ems : R, pn q DX = Some dx /\ pn q AES = Some aes /\
  pn q EMS = Some ems /\ aes + ems * dx = aed + emd * dx /\
  ((aes = aed /\ ems = emd) \/ exists dlsa : R, pn p DLSA = Some dlsa /\ dlsa <= dx).
Proof.
  intro H. assert (FS := H). apply lr_scat_setup_frame in FS. unfold lr_scat_setup in H.
  apply bind_inv in H as [dl0 [_ H]]. apply bind_inv in H as [dl1 [_ H]]. apply bind_inv in H as [he0 [_ H]].
  apply bind_inv in H as [he1 [_ H]]. apply bind_inv in H as [rr [_ H]]. apply bind_inv in H as [[ad rr'] [_ H]].
  apply bind_inv in H as [ens [_ H]]. apply bind_inv in H as [dla [Edla H]]. dsimp_in Edla.
  set (q0 := setn (setn (setn (setn p AD _) RR _) ETQ _) H0S _) in H.
  assert (F0 : same_except [AD; RR; ETQ; H0S] [] [] p q0) by (unfold q0; repeat (apply fr_setn; [reflexivity|]); apply fr_refl).
  clearbody q0. apply bind_inv in H as [q1 [A6 H]]. apply bind_inv in H as [a6 [_ H]].
  apply bind_inv in H as [q2 [A5 H]]. apply bind_inv in H as [a5 [_ H]].
  apply ascat_frame in A6. apply ascat_frame in A5.
  assert (F2 : same_except [AD; RR; ETQ; H0S; ASCAT1] [] [] p q2).
  { eapply fr_trans; [eapply fr_weaken; [|exact F0]; reflexivity|].
    eapply fr_trans; [eapply fr_weaken; [|exact A6]; reflexivity|]. eapply fr_weaken; [|exact A5]; reflexivity. }
  clear F0 A6 A5. apply bind_inv in H as [emd [E1 H]]. apply bind_inv in H as [aed [E2 H]].
  rewrite (fr_getn _ _ _ _ _ EMD F2 eq_refl) in E1. rewrite (fr_getn _ _ _ _ _ AED F2 eq_refl) in E2.
  apply pn_getn in E1, E2, Edla. exists aed, emd, dla. split; [assumption|]. split; [assumption|]. split; [assumption|].
  apply bind_inv in H as [q3 [E3 H]]. inversion H; subst q; clear H. split; [reflexivity|].
  destruct (n_ltb a5 _).
  - apply bind_inv in E3 as [ems [_ E3]]. dsimp_in E3. apply bind_inv in E3 as [dlsa [E4 E3]].
    apply bind_inv in E3 as [xae [_ E3]]. apply bind_inv in E3 as [wn [_ E3]].
    apply bind_inv in E3 as [l [_ E3]]. apply bind_inv in E3 as [t [_ E3]].
    rewrite !pymax_R in E3. cbn [RA n_sub n_add n_mul] in E3.
    match type of E3 with Ok (setn (setn _ DX ?v) AES ?w) = _ => set (dx := v) in *; set (aes := w) in * end.
    inversion E3; subst q3; clear E3. exists dx, aes, ems. repeat (split; [reflexivity|]).
    split; [change aes with ((emd - ems) * dx + aed); ring|]. right. exists dlsa. rewrite (fr_getn _ _ _ _ _ DLSA F2 eq_refl) in E4.
    apply pn_getn in E4. split; [assumption|]. unfold dx.
    eapply Rle_trans; [apply Rmax_l|]. apply Rmax_l.
  - inversion E3; subst q3; clear E3. do 3 eexists. repeat (split; [reflexivity|]). left. auto.
Qed.
Lemma lr_scat_joined p q : scat_joined p -> lr_scat RA p = Ok q -> scat_joined q.
Proof.
  intros J H. unfold lr_scat in H. apply bind_inv in H as [dist [Ed H]]. apply bind_inv in H as [dlsa [Es H]].
  destruct (_ || _)%bool; [|inversion H; subst; exact J].
  apply bind_inv in H as [w [Ew H]]. apply bind_inv in H as [q1 [E1 H]].
  assert (J1 : scat_joined q1).
  { destruct w; [inversion E1; subst; exact J|]. intros _. assert (F := E1). apply lr_scat_setup_frame in F.
    apply lr_scat_setup_inv in E1 as (aed & emd & dla & A1 & A2 & A3 & _ & dx & aes & ems & B1 & B2 & B3 & Q & O).
    apply pn_getn in Es. exists (Branches 0 0 0 dlsa aed emd dx aes ems).
    unfold diff_entries, scat_entries, scat_line, diff_line. cbn [b_dlsa b_aed b_emd b_dx b_aes b_ems].
    split; [thru F; repeat split; assumption|]. split; [repeat split; assumption|].
    split; [assumption|]. destruct O as [O|[s [O1 O2]]]; [right; assumption|]. left. replace s with dlsa in O2 by congruence. assumption. }
  apply bind_inv in H as [dx [_ H]].
  destruct (n_ltb dx dist); apply bind_inv in H as [? [_ H]]; apply bind_inv in H as [? [_ H]]; inversion H; subst;
    (apply (scat_joined_frame [AREF] [] [] q1); [apply fr_setn; [reflexivity | apply fr_refl] | reflexivity | reflexivity | exact J1]).
Qed.
Definition joined (p : prop RA) : Prop := los_joined p /\ scat_joined p.
Lemma lrprop_joined d p p' : (exists m, pz p MDP = Some m /\ m <> 0%Z) \/ joined p -> lrprop RA d p = Ok p' -> joined p'.
Proof.
  intros J H. destruct (lrprop_stages RA d p p' H) as (th & m & p1 & p2 & p3 & p4 & a & _ & M & S & D & L & C & _ & ->).
  assert (J1 : joined p1).
  { destruct S as [[-> ->]|[_ S]].
    - destruct J as [[m' [M' N]]|J]; [congruence | exact J].
    - apply lr_setup_flags in S as [W1 W2]. apply pb_getb in W1, W2. split; intro W; congruence. }
  apply lr_dist_frame in D. assert (FL := L). apply lr_los_frame in FL. assert (FC := C). apply lr_scat_frame in FC.
  destruct J1 as [J1 J1'].
  assert (J2 : los_joined p2) by (eapply los_joined_frame; [exact D | reflexivity | reflexivity | exact J1]).
  assert (J2' : scat_joined p2) by (eapply scat_joined_frame; [exact D | reflexivity | reflexivity | exact J1']).
  assert (J3 := lr_los_joined p2 p3 J2 L).
  assert (J3' : scat_joined p3) by (eapply scat_joined_frame; [exact FL | reflexivity | reflexivity | exact J2']).
  assert (J4 := lr_scat_joined p3 p4 J3' C).
  assert (J4' : los_joined p4) by (eapply los_joined_frame; [exact FC | reflexivity | reflexivity | exact J3]).
  set (v := pymax a _). assert (F : same_except [AREF] [] [] p4 (setn p4 AREF v)) by (apply fr_setn; [reflexivity | apply fr_refl]).
  split; [eapply los_joined_frame | eapply scat_joined_frame]; try exact F; try reflexivity; assumption.
Qed.
Lemma lr_calls_joined ds : forall p p', joined p -> lr_calls RA ds p = Ok p' -> joined p'.
Proof.
  induction ds as [|d ds IH]; intros p p' J H; cbn [lr_calls] in H; [inversion H; subst; exact J|].
  apply bind_inv in H as [q [E H]]. apply (IH q p'); [|exact H]. exact (lrprop_joined d p q (or_intror J) E).
Qed.
Lemma lr_calls_joined_setup d ds p p' m : pz p MDP = Some m -> m <> 0%Z -> lr_calls RA (d :: ds) p = Ok p' -> joined p'.
Proof.
  intros M N H. cbn [lr_calls] in H. apply bind_inv in H as [q [E H]].
  apply (lr_calls_joined ds q p'); [|exact H]. apply (lrprop_joined d p q); [left; eauto | exact E].
Qed.

(** ** The reference curve *)
Lemma lr_setup_dlsa th p s : lr_setup RA th p = Ok s -> exists dlsa : R, pn s DLSA = Some dlsa /\ 0 < dlsa.
Proof.
  intro H. unfold lr_setup in H. apply bind_inv in H as [q1 [E1 H]]. apply bind_inv in H as [q2 [E2 H]].
  apply lr_checks_frame in E2. assert (FD := H). apply lr_diff_frame in FD.
  unfold lr_geom in E1. apply bind_inv in E1 as [he0 [Eh0 E1]]. apply bind_inv in E1 as [he1 [Eh1 E1]].
  apply bind_inv in E1 as [gme [Eg E1]]. apply bind_inv in E1 as [t0 [Et0 E1]]. apply bind_inv in E1 as [s0 [Es0 E1]].
  apply bind_inv in E1 as [t1 [Et1 E1]]. apply bind_inv in E1 as [s1 [Es1 E1]].
  cbn [RA n_div m_sqrt n_mul n_Z] in Et0, Et1, Es0, Es1. apply r_div_inv in Et0 as [G Et0]. apply r_div_inv in Et1 as [_ Et1].
  apply r_sqrt_inv in Es0 as [P0 Es0]. apply r_sqrt_inv in Es1 as [P1 Es1].
  repeat (apply bind_inv in E1; destruct E1 as [? [_ E1]]). inversion E1; subst q1; clear E1.
  assert (D : pn s DLSA = Some (s0 + s1)).
  { thru FD. thru E2. reflexivity. }
  exists (s0 + s1). split; [exact D|].
  assert (N : he0 <> 0).
  { unfold lr_diff in H. apply bind_inv in H as [h0 [Ha H]]. apply bind_inv in H as [h1 [Hb H]].
    apply bind_inv in H as [dm [_ H]]. apply bind_inv in H as [[a0 q3] [Hd _]]. clear - Hd Ha E2 Eh0.
    assert (h0 = he0).
    { rewrite (fr_getn _ _ _ _ _ HE0 E2 eq_refl) in Ha. dsimp_in Ha. congruence. }
    subst h0. clear E2 Eh0. unfold adiff in Hd. apply bind_inv in Hd as [t [_ Hd]].
    cbn [n_eqb RA n_Z] in Hd. replace (r_eqb 0 0) with true in Hd by (symmetry; apply r_eqb_true; reflexivity).
    apply bind_inv in Hd as [q4 [Hi _]]. unfold adiff_init in Hi.
    apply bind_inv in Hi as [? [_ Hi]]. apply bind_inv in Hi as [? [_ Hi]]. apply bind_inv in Hi as [h [E0 Hi]].
    dsimp_in E0. assert (h = he0) by congruence. subst h.
    do 19 (apply bind_inv in Hi; destruct Hi as [? [_ Hi]]).
    apply bind_inv in Hi as [[? ?] [Ht _]]. unfold adiff_term in Ht. apply bind_inv in Ht as [? [_ Ht]].
    apply bind_inv in Ht as [? [Ht _]]. cbn [n_div RA] in Ht. apply r_div_inv in Ht as [N _]. exact N. }
  assert (0 < s0); [|assert (0 <= s1) by (rewrite Es1; apply sqrt_pos); lra].
  rewrite Es0. apply sqrt_lt_R0. destruct P0 as [P0|P0]; [exact P0|]. exfalso.
  rewrite Et0 in P0. apply N. symmetry in P0. apply Rmult_integral in P0 as [P0|P0]; [|apply Rinv_neq_0_compat in P0; [contradiction | exact G]]. lra.
Qed.
Lemma lr_setup_dmin th p s : lr_setup RA th p = Ok s -> exists dm, getn s DMIN = Ok dm.
Proof.
  intro S. unfold lr_setup in S. apply bind_inv in S as [q1 [_ S]]. apply bind_inv in S as [q2 [_ S]].
  unfold lr_diff in S. apply bind_inv in S as [he0 [_ S]]. apply bind_inv in S as [he1 [_ S]].
  apply bind_inv in S as [dmin [_ S]]. exists dmin. apply bind_inv in S as [[a0 r1] [E0 S]].
  apply adiff_frame in E0. cbn [snd] in E0.
  assert (X : getn r1 DMIN = Ok dmin) by (rewrite (fr_getn _ _ _ _ _ DMIN E0 eq_refl); dsimp; reflexivity). clear E0.
  do 6 (apply bind_inv in S; destruct S as [? [_ S]]).
  apply bind_inv in S as [[a3 r2] [E0 S]]. apply adiff_frame in E0. cbn [snd] in E0.
  assert (X2 : getn r2 DMIN = Ok dmin) by (rewrite (fr_getn _ _ _ _ _ DMIN E0 eq_refl); dsimp; exact X). clear E0.
  apply bind_inv in S as [[a4 r3] [E0 S]]. apply adiff_frame in E0. cbn [snd] in E0.
  assert (X3 : getn r3 DMIN = Ok dmin) by (rewrite (fr_getn _ _ _ _ _ DMIN E0 eq_refl); exact X2). clear E0.
  do 4 (apply bind_inv in S; destruct S as [? [_ S]]). inversion S; subst s. dsimp. exact X3.
Qed.

Section Fresh.
Context (th : R) (p s : prop RA) (m : Z).
Hypothesis T : @n_div RA (@n_Z RA 1) (@n_Z RA 3) = Ok th.
Hypothesis M : pz p MDP = Some m.
Hypothesis Pm : (0 < m)%Z.
Hypothesis St : lr_setup RA th p = Ok s.
Lemma fresh_dist d : exists r, lr_dist RA d s = Ok r /\ getn r DIST = Ok d.
Proof.
  destruct (lr_dist_total' RA d s) as [r D].
  - exists m. split; [|lia]. apply pz_getz. rewrite (lr_setup_mdp RA th p s St). exact M.
  - eapply lr_setup_kwx; exact St.
  - intros _. eapply lr_setup_dmin; exact St.
  - exists r. split; [exact D|]. apply (lr_dist_dist RA d s r m); [|lia | exact D].
    apply pz_getz. rewrite (lr_setup_mdp RA th p s St). exact M.
Qed.
Lemma fresh_run d r1 r2 r3 (a : R) : lr_dist RA d s = Ok r1 -> lr_los RA r1 = Ok r2 -> lr_scat RA r2 = Ok r3 ->
  getn r3 AREF = Ok a -> lrprop RA d p = Ok (setn r3 AREF (Rmax 0 a)).
Proof.
  intros D L C E. unfold lrprop. rewrite T. cbn [bind].
  apply pz_getz in M. rewrite M. cbn [bind]. replace (m =? 0)%Z with false by lia. cbn [negb].
  rewrite St. cbn [bind]. rewrite D. cbn [bind]. rewrite L. cbn [bind]. rewrite C. cbn [bind]. rewrite E. cbn [bind].
  rewrite pymax_R, Rmax_comm. reflexivity.
Qed.
Lemma fresh_los (d dlsa k1 k2 ael : R) : pn s DLSA = Some dlsa -> 0 < d < dlsa -> lr_los_coeffs RA s = Ok (k1, k2, ael) ->
  exists p', lrprop RA d p = Ok p' /\ pn p' AREF = Some (Rmax 0 (ael + k1 * d + k2 * ln d)).
Proof.
  intros Es Hd Hc. destruct (fresh_dist d) as [r1 [D1 E1]]. assert (F1 := D1). apply lr_dist_frame in F1.
  assert (S1 : getn r1 DLSA = Ok dlsa) by (rewrite (fr_getn _ _ _ _ _ DLSA F1 eq_refl); apply pn_getn; exact Es).
  assert (W1 : getb r1 WLOS = Ok false).
  { rewrite (fr_getb _ _ _ _ _ WLOS F1 eq_refl). apply (lr_setup_flags RA th p s St). }
  assert (C1 : lr_los_coeffs RA r1 = Ok (k1, k2, ael)).
  { rewrite <- Hc. apply lr_los_coeffs_ext. split; [|split; intros k []].
    intros k I. apply (fr_pn _ _ _ _ _ k F1). unfold los_in in I. cbn in I. repeat destruct I as [<-|I]; try reflexivity; contradiction. }
  assert (L : lr_los RA r1 = Ok (setn (setb (setn (setn (setn r1 AK1 k1) AK2 k2) AEL ael) WLOS true) AREF ((ael + k1 * d + k2 * ln d)%R : num RA))).
  { unfold lr_los. rewrite E1, S1. cbn [bind n_ltb RA]. rewrite (proj2 (r_ltb_true d dlsa)) by lra. rewrite W1. cbn [bind].
    rewrite C1. cbn [bind n_Z np_log RA]. rewrite (proj2 (r_ltb_true 0 d)) by lra. rewrite r_log_ok by lra. reflexivity. }
  set (r2 := setn (setb _ WLOS true) AREF _) in L.
  assert (C : lr_scat RA r2 = Ok r2).
  { unfold r2. apply (lr_scat_within RA _ d dlsa); [dsimp; exact E1 | dsimp; exact S1 | |]; cbn [RA n_leb n_Z]; apply r_leb_false; lra. }
  exists (setn r2 AREF (Rmax 0 (ael + k1 * d + k2 * ln d))). split; [|reflexivity].
  apply (fresh_run d r1 r2 r2 _ D1 L C). unfold r2. dsimp. reflexivity.
Qed.
Lemma fresh_scat (d dlsa dx aes ems aed emd : R) s' : pn s DLSA = Some dlsa -> 0 < d -> dlsa <= d -> lr_scat_setup RA s = Ok s' ->
  pn s AED = Some aed -> pn s EMD = Some emd -> pn s' DX = Some dx -> pn s' AES = Some aes -> pn s' EMS = Some ems ->
  exists p', lrprop RA d p = Ok p' /\ pn p' AREF = Some (Rmax 0 (if Rle_dec d dx then aed + emd * d else aes + ems * d)).
Proof.
  intros Es Pd Hd Hs E1 E2 E3 E4 E5. destruct (fresh_dist d) as [r1 [D1 Ed]]. assert (F1 := D1). apply lr_dist_frame in F1.
  assert (S1 : getn r1 DLSA = Ok dlsa) by (rewrite (fr_getn _ _ _ _ _ DLSA F1 eq_refl); apply pn_getn; exact Es).
  destruct (lr_setup_flags RA th p s St) as [Ws Wl].
  assert (W1 : getb r1 WSCAT = Ok false) by (rewrite (fr_getb _ _ _ _ _ WSCAT F1 eq_refl); exact Ws).
  assert (I1 := Inv_dist RA s s d r1 (Inv_refl RA s Ws) D1).
  assert (L : lr_los RA r1 = Ok r1) by (apply (lr_los_beyond RA r1 d dlsa Ed S1); apply r_ltb_false; exact Hd).
  assert (Ge : @n_leb RA dlsa d = true) by (apply r_leb_true; exact Hd).
  assert (Fs' := Hs). apply lr_scat_setup_frame in Fs'.
  destruct (scat_total RA s r1 d dlsa s' I1 W1 Ed (proj2 (pn_getn RA s DLSA dlsa) Es) Ge Hs) as [r2 C].
  { exists dx. split; [apply pn_getn; exact E3|]. destruct (@n_ltb RA dx d); split; eexists; apply pn_getn;
      [exact E4 | exact E5 | exact E1 | exact E2]. }
  destruct (scat_value RA s r1 d r2 dlsa I1 Ed (proj2 (pn_getn RA s DLSA dlsa) Es) Ge C) as (s'' & dx' & v & K1 & K2 & K3 & K4).
  rewrite Hs in K1. inversion K1; subst s''. apply pn_getn in K2. rewrite E3 in K2. inversion K2; subst dx'.
  eexists. split; [eapply fresh_run; [exact D1 | exact L | exact C | exact K4]|].
  cbn [pn setn]. rewrite nkey_eqb_refl. f_equal. f_equal. cbn [n_ltb RA] in K3.
  destruct (r_ltb dx d) eqn:B; rbool; destruct (Rle_dec d dx); try lra.
  - destruct K3 as (x & y & G1 & G2 & ->). apply pn_getn in G1, G2. cbn [RA n_add n_mul]. congruence.
  - destruct K3 as (x & y & G1 & G2 & ->). apply pn_getn in G1, G2. cbn [RA n_add n_mul]. congruence.
Qed.
End Fresh.

Lemma reference_at_joins c : b_dlsa c <= b_dx c \/ (b_aes c = b_aed c /\ b_ems c = b_emd c) ->
  scat_line c (b_dx c) = diff_line c (b_dx c) -> los_curve c (b_dlsa c) = diff_line c (b_dlsa c) -> 0 < b_dlsa c ->
  forall d, 0 < d -> continuity_pt (reference c) d.
Proof.
  intros O Ex Es Ps d Pd.
  assert (CL : forall x, 0 < x -> continuity_pt (los_curve c) x).
  { intros x Px. unfold los_curve.
    apply (continuity_pt_plus (fun d => b_ael c + b_ak1 c * d) (fun d => b_ak2 c * ln d)); [reg|].
    apply (continuity_pt_mult (fun _ => b_ak2 c) ln); [reg|].
    apply derivable_continuous_pt. exists (/ x). apply derivable_pt_lim_ln. exact Px. }
  assert (CD : forall x, continuity_pt (diff_line c) x) by (intro x; unfold diff_line; reg).
  assert (CS : forall x, continuity_pt (scat_line c) x) by (intro x; unfold scat_line; reg).
  (* beyond the horizon *)
  set (g := fun d => if Rle_dec d (b_dx c) then diff_line c d else scat_line c d).
  assert (glue : forall (f1 f2 : R -> R) t, (f1 t = f2 t) -> (forall x, 0 < x -> continuity_pt f1 x) ->
    (forall x, 0 < x -> continuity_pt f2 x) -> forall x, 0 < x -> forall h, (forall y, y < t -> h y = f1 y) ->
    (forall y, t < y -> h y = f2 y) -> h t = f1 t -> continuity_pt h x).
  { intros f1 f2 t Et C1 C2 x Px h H1 H2 H3 eps Pe.
    destruct (C1 x Px eps Pe) as [a1 [Pa1 K1]]. destruct (C2 x Px eps Pe) as [a2 [Pa2 K2]].
    unfold dist in *; cbn [R_met Base] in *. unfold R_dist in *.
    destruct (Rtotal_order x t) as [Lx|[Lx|Lx]].
    - exists (Rmin a1 (t - x)). split; [apply Rmin_pos; lra|]. intros y [Dy Hy].
      assert (Rabs (y - x) < t - x) by (eapply Rlt_le_trans; [exact Hy | apply Rmin_r]).
      assert (y < t) by (apply Rabs_def2 in H; lra). rewrite (H1 y), (H1 x) by lra. apply K1. split; [exact Dy|].
      eapply Rlt_le_trans; [exact Hy | apply Rmin_l].
    - subst x. exists (Rmin a1 a2). split; [apply Rmin_pos; lra|]. intros y [Dy Hy]. rewrite H3.
      assert (Rabs (y - t) < a1) by (eapply Rlt_le_trans; [exact Hy | apply Rmin_l]).
      assert (Rabs (y - t) < a2) by (eapply Rlt_le_trans; [exact Hy | apply Rmin_r]).
      destruct (Rtotal_order y t) as [Ly|[Ly|Ly]].
      + rewrite (H1 y Ly). apply K1. auto.
      + destruct Dy as [_ Dy]. congruence.
      + rewrite (H2 y Ly), Et. apply K2. auto.
    - exists (Rmin a2 (x - t)). split; [apply Rmin_pos; lra|]. intros y [Dy Hy].
      assert (Rabs (y - x) < x - t) by (eapply Rlt_le_trans; [exact Hy | apply Rmin_r]).
      assert (t < y) by (apply Rabs_def2 in H; lra). rewrite (H2 y), (H2 x) by lra. apply K2. split; [exact Dy|].
      eapply Rlt_le_trans; [exact Hy | apply Rmin_l]. }
  assert (Cg : forall x, 0 < x -> continuity_pt g x).
  { intros x Px. apply (glue (diff_line c) (scat_line c) (b_dx c)); auto.
    - intros y Hy. unfold g. destruct (Rle_dec y (b_dx c)); [reflexivity | lra].
    - intros y Hy. unfold g. destruct (Rle_dec y (b_dx c)); [lra | reflexivity].
    - unfold g. destruct (Rle_dec (b_dx c) (b_dx c)); [reflexivity | lra]. }
  assert (Gs : los_curve c (b_dlsa c) = g (b_dlsa c)).
  { rewrite Es. unfold g. destruct (Rle_dec (b_dlsa c) (b_dx c)) as [|N]; [reflexivity|].
    destruct O as [O|[O1 O2]]; [contradiction|]. unfold diff_line, scat_line. rewrite O1, O2. reflexivity. }
  set (h := fun d => if Rlt_dec d (b_dlsa c) then los_curve c d else g d).
  assert (Ch : forall x, 0 < x -> continuity_pt h x).
  { intros x Px. apply (glue (los_curve c) g (b_dlsa c)); auto.
    - intros y Hy. unfold h. destruct (Rlt_dec y (b_dlsa c)); [reflexivity | lra].
    - intros y Hy. unfold h. destruct (Rlt_dec y (b_dlsa c)); [lra | reflexivity].
    - unfold h. destruct (Rlt_dec (b_dlsa c) (b_dlsa c)); [lra | rewrite Gs; reflexivity]. }
  assert (E : forall x, reference c x = (h x + Rabs (h x)) * (1 / 2)).
  { intro x. unfold reference. fold (g x). fold (h x). unfold Rmax. destruct (Rle_dec 0 (h x)).
    - rewrite Rabs_right by lra. lra.
    - rewrite Rabs_left by lra. lra. }
  intros eps Pe.
  assert (Cf : continuity_pt (fun x => (h x + Rabs (h x)) * (1 / 2)) d).
  { apply (continuity_pt_mult (fun x => h x + Rabs (h x)) (fun _ => 1 / 2)); [|reg].
    apply (continuity_pt_plus h (fun x => Rabs (h x))); [auto|].
    apply (continuity_pt_comp h Rabs); [auto | apply Rcontinuity_abs]. }
  destruct (Cf eps Pe) as [al [Pa K]]. exists al. split; [exact Pa|]. intros x Hx.
  rewrite (E x), (E d). apply K. exact Hx.
Qed.

(** The curve of one path: the coefficients stored by a call at distance 0, and how the branches meet. *)
Definition joints (c : branches) : Prop :=
  (b_dlsa c <= b_dx c \/ (b_aes c = b_aed c /\ b_ems c = b_emd c)) /\ scat_line c (b_dx c) = diff_line c (b_dx c) /\
  los_curve c (b_dlsa c) = diff_line c (b_dlsa c) /\ 0 < b_dlsa c.
Lemma curve_facts p p0 m : pz p MDP = Some m -> (0 < m)%Z -> lrprop RA 0 p = Ok p0 ->
  exists c, (los_entries p0 c /\ diff_entries p0 c /\ scat_entries p0 c) /\ joints c /\
    (pb p0 WLOS = Some true /\ pb p0 WSCAT = Some true) /\
    (forall d, 0 < d -> exists p', lrprop RA d p = Ok p' /\ pn p' AREF = Some (reference c d)).
Proof.
  intros M Pm H.
  assert (J : joined p0) by (apply (lrprop_joined 0 p p0); [left; exists m; split; [exact M | lia] | exact H]).
  destruct (lrprop_stages RA 0 p p0 H) as (th & m' & s & p2 & p3 & p4 & a & T & M' & S & D & L & C & Ea & ->).
  rewrite M in M'. inversion M'; subst m'. destruct S as [[S _]|[_ St]]; [lia|].
  destruct (lr_setup_dlsa th p s St) as [dlsa [Es Ps]].
  destruct (lr_setup_flags RA th p s St) as [Ws Wl].
  assert (Ms : getz s MDP = Ok m) by (apply pz_getz; rewrite (lr_setup_mdp RA th p s St); exact M).
  assert (E0 := lr_dist_dist RA 0 s p2 m Ms ltac:(lia) D).
  assert (FD := D). apply lr_dist_frame in FD.
  assert (I2 := Inv_dist RA s s 0 p2 (Inv_refl RA s Ws) D). assert (I3 := Inv_los RA s p2 p3 I2 L).
  assert (FL := L). apply lr_los_frame in FL. assert (FC := C). apply lr_scat_frame in FC.
  assert (Es2 : getn p2 DLSA = Ok dlsa) by (rewrite (fr_getn _ _ _ _ _ DLSA FD eq_refl); apply pn_getn; exact Es).
  (* line-of-sight coefficients *)
  unfold lr_los in L. rewrite E0, Es2 in L. cbn [bind n_ltb RA] in L.
  rewrite (proj2 (r_ltb_true 0 dlsa)) in L by lra.
  rewrite (fr_getb _ _ _ _ _ WLOS FD eq_refl), Wl in L. cbn [bind] in L.
  apply bind_inv in L as [[[k1 k2] ael] [Ec L]]. change (@n_Z RA 0) with 0 in L.
  replace (r_ltb 0 0) with false in L by (symmetry; apply r_ltb_false; lra).
  assert (Ecs : lr_los_coeffs RA s = Ok (k1, k2, ael)).
  { rewrite <- Ec. apply lr_los_coeffs_ext. split; [|split; intros k []].
    intros k I. symmetry. apply (fr_pn _ _ _ _ _ k FD). unfold los_in in I. cbn in I.
    repeat destruct I as [<-|I]; try reflexivity; contradiction. }
  assert (P3 : pn p3 AEL = Some ael /\ pn p3 AK1 = Some k1 /\ pn p3 AK2 = Some k2 /\ pb p3 WLOS = Some true).
  { inversion L; subst p3. repeat split; reflexivity. }
  clear L.
  (* scatter coefficients *)
  assert (E03 : getn p3 DIST = Ok 0) by (rewrite (fr_getn _ _ _ _ _ DIST FL eq_refl); exact E0).
  assert (Es3 : getn p3 DLSA = Ok dlsa) by (rewrite (fr_getn _ _ _ _ _ DLSA FL eq_refl); exact Es2).
  assert (Ws3 : getb p3 WSCAT = Ok false).
  { rewrite (fr_getb _ _ _ _ _ WSCAT FL eq_refl), (fr_getb _ _ _ _ _ WSCAT FD eq_refl). exact Ws. }
  unfold lr_scat in C. rewrite E03, Es3 in C. cbn [bind n_leb RA n_Z] in C.
  rewrite (proj2 (r_leb_true 0 0)) in C by lra. cbn [orb] in C. rewrite Ws3 in C. cbn [bind] in C.
  apply bind_inv in C as [q [Eq C]].
  destruct (Inv_setup RA s p3 q I3 Ws3 Eq) as (s' & Hs' & _ & X1 & X2 & X3).
  assert (FQ := Eq). apply lr_scat_setup_frame in FQ.
  destruct (lr_scat_setup_inv p3 q Eq) as (aed & emd & dla & A1 & A2 & _ & Wq & dx & aes & ems & B1 & B2 & B3 & _ & _).
  assert (F4 : same_except [AREF] [] [] q p4).
  { apply bind_inv in C as [x [_ C]]. destruct (n_ltb x _); apply bind_inv in C as [? [_ C]]; apply bind_inv in C as [? [_ C]];
      inversion C; subst; (apply fr_setn; [reflexivity | apply fr_refl]). }
  set (p0 := setn p4 AREF (pymax a _)) in *.
  assert (F0 : same_except [AREF] [] [] q p0).
  { unfold p0. apply fr_setn; [reflexivity | exact F4]. }
  assert (Ad : pn s AED = Some aed).
  { rewrite <- A1. symmetry. thru FL. thru FD. reflexivity. }
  assert (Em : pn s EMD = Some emd).
  { rewrite <- A2. symmetry. thru FL. thru FD. reflexivity. }
  set (c := Branches ael k1 k2 dlsa aed emd dx aes ems).
  assert (En : los_entries p0 c /\ diff_entries p0 c /\ scat_entries p0 c).
  { unfold los_entries, diff_entries, scat_entries. cbn [c b_ael b_ak1 b_ak2 b_dlsa b_aed b_emd b_dx b_aes b_ems].
    destruct P3 as (Q1 & Q2 & Q3 & _).
    split; [|split].
    - thru F0. thru FQ. auto.
    - thru F0. thru FQ. thru FL. thru FD. auto.
    - thru F0. auto. }
  assert (W0 : pb p0 WLOS = Some true).
    { thru F0. thru FQ. apply P3. }
  assert (W0' : pb p0 WSCAT = Some true) by (thru F0; exact Wq).
    destruct J as [J1 J2]. destruct (J1 W0) as [c1 [Y1 [Y2 [_ Y3]]]]. destruct (J2 W0') as [c2 [Z1 [Z2 [Z3 Z4]]]].
    pose proof En as [[N1 [N2 N3]] [[N4 [N5 N6]] [N7 [N8 N9]]]].
    destruct Y1 as [Y11 [Y12 Y13]], Y2 as [Y21 [Y22 Y23]], Z1 as [Z11 [Z12 Z13]], Z2 as [Z21 [Z22 Z23]].
    assert (U : forall k (x y : R), pn p0 k = Some x -> pn p0 k = Some y -> x = y) by (intros; congruence).
    assert (V1 : b_ael c1 = ael) by (eapply U; eassumption). assert (V2 : b_ak1 c1 = k1) by (eapply U; eassumption).
    assert (V3 : b_ak2 c1 = k2) by (eapply U; eassumption). assert (V4 : b_dlsa c1 = dlsa) by (eapply U; eassumption).
    assert (V5 : b_aed c1 = aed) by (eapply U; eassumption). assert (V6 : b_emd c1 = emd) by (eapply U; eassumption).
    assert (V7 : b_dlsa c2 = dlsa) by (eapply U; eassumption). assert (V8 : b_aed c2 = aed) by (eapply U; eassumption).
    assert (V9 : b_emd c2 = emd) by (eapply U; eassumption). assert (V10 : b_dx c2 = dx) by (eapply U; eassumption).
    assert (V11 : b_aes c2 = aes) by (eapply U; eassumption). assert (V12 : b_ems c2 = ems) by (eapply U; eassumption).
    assert (JC : joints c).
    { repeat split; cbn [c b_dlsa b_dx b_aes b_aed b_ems b_emd].
      + rewrite V7, V8, V9, V10, V11, V12 in Z4. exact Z4.
      + unfold scat_line, diff_line in *. cbn [c b_dx b_aes b_ems b_aed b_emd] in *. rewrite V8, V9, V10, V11, V12 in Z3. exact Z3.
      + unfold los_curve, diff_line in *. cbn [c b_dlsa b_ael b_ak1 b_ak2 b_aed b_emd] in *.
        rewrite V1, V2, V3, V4, V5, V6 in Y3. exact Y3.
      + exact Ps. }
  exists c. split; [exact En|]. split; [exact JC|]. split; [split; assumption|].
  intros d Pd. unfold reference. cbn [c b_dlsa b_dx]. destruct (Rlt_dec d dlsa) as [Ld|Ld].
    + unfold los_curve. cbn [b_ael b_ak1 b_ak2]. apply (fresh_los th p s m T M Pm St d dlsa); auto.
    + unfold diff_line, scat_line. cbn [b_aed b_emd b_aes b_ems].
      apply (fresh_scat th p s m T M Pm St d dlsa dx aes ems aed emd s'); auto; try lra;
        apply pn_getn; rewrite <- ?X1, <- ?X2, <- ?X3; apply pn_getn; assumption.
Qed.
Lemma reference_curve p p0 m : pz p MDP = Some m -> (0 < m)%Z -> lrprop RA 0 p = Ok p0 ->
  exists c, (los_entries p0 c /\ diff_entries p0 c /\ scat_entries p0 c) /\ 0 < b_dlsa c /\
    (forall d, 0 < d -> exists p', lrprop RA d p = Ok p' /\ pn p' AREF = Some (reference c d)) /\
    (forall d, 0 < d -> continuity_pt (reference c) d).
Proof.
  intros M Pm H. destruct (curve_facts p p0 m M Pm H) as (c & En & (J1 & J2 & J3 & J4) & _ & K).
  exists c. split; [exact En|]. split; [exact J4|]. split; [exact K|].
  apply reference_at_joins; assumption.
Qed.
