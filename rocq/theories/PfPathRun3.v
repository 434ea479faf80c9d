(** p2p.py returns its table, or not; exactly when. *)
From Coq Require Classical_Prop.
From Verif Require Import RInst Frame RTac SpecLr SpecQuant PfFrame PfLrGen PfPrepGen PfRegime PfAtten PfAvarReal PfStats PfSetup PfRealRun PfHzns PfDlthx PfTerminal PfPfl SpecTotal PfTotal PfTotal2 PfTotal3 PfTotal4 PfTotal6 PfMode PfMisc PfAreaRun PfAreaRun2 PfAreaRun4 SpecPathRun PfPathRun PfPathRun2 PfReverse4 Scripts Prep Stats LrProp Dict Arith.
Open Scope R_scope.

Lemma runs_iff_at v x : (forall d, 0 < d -> reflects v d) -> 0 < fit_d0 v -> 0 < fit_d1 v -> scatters v x -> (runs_at v x <-> ~ divides_by_zero v x).
Proof.
  intros RF P0 P1 S. unfold runs_at, divides_by_zero. rewrite (los_ok_iff v RF P0 P1). split.
  - intros [A B] [[C D]|[C D]]; [exact (A C D) | exact (proj1 (scat_ok_iff v (S C)) (B C) D)].
  - intro N. split; intros L; [|apply (scat_ok_iff v (S L))]; intro Q; apply N; [left | right]; split; assumption.
Qed.
Lemma ground_curve v b : physical v -> reference_params v b -> ground_ok v -> curve_ok v.
Proof.
  intros P (GP & DP & LP) G. assert (B := bending_of v GP). assert (X : 0 < v XAE) by (destruct LP as (-> & _); apply exp_pos).
  assert (S : smallest_gap v = 1.3787 * v XAE) by (unfold smallest_gap; destruct LP as (-> & _); reflexivity).
  assert (A3 := Rmax_r (v DLSA) (v DLA + 1.3787 * v XAE)). change (Rmax _ _) with (diff_d3 v) in A3.
  split; apply (rounded_x_pos v b); try assumption; unfold diff_d4; lra.
Qed.

Lemma first_call (d x : R) (p : prop RA) v m k : values p (ENS :: setup_inputs) v -> pz p MDP = Some m -> m <> 0%Z -> pz p KWX = Some k ->
  physical v -> reference_params v (m <? 0)%Z -> (if (0 <=? m)%Z then x = d else pn p DIST = Some x) -> 0 < x -> (forall y, 0 < y -> reflects v y) -> scatters v x ->
  (~ curve_ok v -> lrprop RA d p = Err NotReal) /\
  (curve_ok v -> divides_by_zero v x -> lrprop RA d p = Err ZeroDivisionError) /\
  (curve_ok v -> ~ divides_by_zero v x -> exists q, lrprop RA d p = Ok q).
Proof.
  intros V M N K PH RP X PX RF SC. split; [|cut (curve_ok v -> (runs_at v x /\ exists q, lrprop RA d p = Ok q) \/ (~ runs_at v x /\ lrprop RA d p = Err ZeroDivisionError))].
  - intro C. destruct (setup_exact v (m <? 0)%Z PH RP p m k V M eq_refl K) as [_ BAD]. specialize (BAD C). unfold lrprop. cbn [RA n_div n_Z]. rewrite r_div_ok by lra. cbn [bind].
    rewrite (proj2 (pz_getz RA p MDP _) M). cbn [bind]. rewrite (proj2 (Z.eqb_neq m 0) N). cbn [negb]. change (num RA) with R in *. rewrite BAD. reflexivity.
  - assert (GP := RP). destruct GP as (GP & _). assert (PH' := PH). destruct PH' as (W & G & _ & _ & _ & H0 & H1 & L0 & L1 & _).
    assert (LA : 0 < v DLA) by (destruct GP as (_ & _ & _ & -> & _); lra).
    assert (F0 : 0 < fit_d0 v) by (apply d0_pos; assumption). assert (F1 : 0 < fit_d1 v) by (apply d1_pos; assumption). assert (Y := runs_iff_at v x RF F0 F1 SC).
    intro H. split; intros C D; destruct (H C) as [[A B]|[A B]]; try assumption; exfalso; tauto.
  - intro C. destruct (setup_core_exact v (m <? 0)%Z PH RP p m k V M eq_refl K C) as (q & E & CQ & MQ & WQ & DQ). assert (FS := setup_flag p q E). rewrite (lrprop_setup_rest d p q m M N E).
    assert (MC : mid_calls v q) by (split; [exact CQ|]; split; intro; congruence).
    assert (DD : if (0 <=? m)%Z then x = d else pn q DIST = Some x) by (destruct (0 <=? m)%Z; [exact X | rewrite DQ; exact X]).
    destruct (rest_exact_at v (m <? 0)%Z PH RP RF d q m x MC MQ DD PX SC (or_introl WQ)) as [(O & r & Er & _)|F]; [left | right; exact F]. split; [exact O | exists r; exact Er].
Qed.

(** ** The table *)
Section Table.
Context (v : nkey -> R).
Hypothesis PH : physical v.
Lemma p2p_rows_run (d fs qr zr x : R) qz (p : prop RA) : 0 < x -> ongoing_at v (-1) p -> stat_on p -> pn p DIST = Some x ->
  exists rows q, p2p_rows RA d fs qr zr qz p = Ok (rows, q) /\ ongoing_at v (-1) q /\ stat_on q /\ pn q DIST = Some x /\ map fst rows = map (fun c => (d, qr, c)) (map fst qz).
Proof using PH.
  intros X. revert p. induction qz as [|[qc zc] qz IH]; intros p O S E; cbn [p2p_rows]; [exists [], p; auto 6|].
  destruct (avar_step_at v PH (-1) zr 0 zc x p X O S E) as (a & q & Ea & O' & S' & E'). change (num RA) with R in *. cbn [n_Z RA]. rewrite Ea. cbn [bind].
  destruct (IH q O' S' E') as (rows & r & Er & O2 & S2 & E2 & M). rewrite Er. cbn [bind]. eexists _, r. split; [reflexivity|]. split; [exact O2|]. split; [exact S2|]. split; [exact E2|].
  cbn [map fst]. f_equal. exact M.
Qed.
Lemma p2p_table_run (d fs x : R) qrz qz (p : prop RA) : 0 < x -> ongoing_at v (-1) p -> stat_on p -> pn p DIST = Some x ->
  exists rows, p2p_table RA d fs qrz qz p = Ok rows /\ map fst rows = flat_map (fun r => map (fun c => (d, r, c)) (map fst qz)) (map fst qrz).
Proof using PH.
  intros X. revert p. induction qrz as [|[qr zr] l IH]; intros p O S E; cbn [p2p_table]; [exists []; auto|].
  destruct (p2p_rows_run d fs qr zr x qz p X O S E) as (rows & q & Er & O' & S' & E' & M). change (num RA) with R in *. rewrite Er. cbn [bind].
  destruct (IH q O' S' E') as (rest & Et & Mt). rewrite Et. cbn [bind]. eexists. split; [reflexivity|]. rewrite map_app, M, Mt. reflexivity.
Qed.
End Table.
Lemma classify_run (xi x y : R) (p : prop RA) : pn p DIST = Some x -> pn p DLSA = Some y -> (y <= x -> exists z, pn p DX = Some z) -> exists k, p2p_classify RA xi p = Ok k.
Proof.
  intros D L X. unfold p2p_classify. rewrite (proj2 (pn_getn RA p DIST x) D), (proj2 (pn_getn RA p DLSA y) L). cbn [bind]. cbv zeta. cbn [n_leb RA]. unfold r_leb. destruct (Rle_dec x y); cbn [bind]; [eauto|].
  destruct X as [z Z]; [lra|]. rewrite (proj2 (pn_getn RA p DX z) Z). cbn [bind]. destruct (_ >? _)%num; cbn [bind]; eauto.
Qed.
Lemma mapM_len {A B} (f : A -> res B) l m : mapM f l = Ok m -> length m = length l.
Proof.
  revert m. induction l as [|x l IH]; intros m H; cbn [mapM] in H; [apply ok_inj in H; subst m; reflexivity|].
  apply bind_inv in H as (y & _ & H). apply bind_inv in H as (k & E & H). apply ok_inj in H. subst m. cbn. f_equal. apply IH. exact E.
Qed.
Lemma fst_combine {A B} (l : list A) (m : list B) : length m = length l -> map fst (combine l m) = l.
Proof. revert m. induction l as [|x l IH]; intros [|y m] H; try discriminate H; [reflexivity|]. cbn. f_equal. apply IH. injection H as H. exact H. Qed.

Lemma path_exact_prepared (p : prop RA) z d f h0 h1 ipol : path_request p z d f h0 h1 ipol -> exists v, path_values z d f h0 h1 ipol v /\
  (d <= 200 -> scatters v (1000 * d)) /\ (ground_ok v -> curve_ok v) /\
  (~ curve_ok v -> itmlogic_p2p RA z p = Err NotReal) /\
  ((exists q, p2p_prepare RA z p = Ok q) -> scatters v (1000 * d) -> curve_ok v /\ ~ divides_by_zero v (1000 * d)) /\
  (curve_ok v -> scatters v (1000 * d) -> divides_by_zero v (1000 * d) -> itmlogic_p2p RA z p = Err ZeroDivisionError) /\
  (curve_ok v -> scatters v (1000 * d) -> ~ divides_by_zero v (1000 * d) -> exists out, itmlogic_p2p RA z p = Ok out /\
     out_fs RA out = 8.685890 * ln (2 * v WN * (1000 * d)) /\
     map fst (out_rows RA out) = flat_map (fun r => map (fun c => (d, r, c)) [50; 90; 10]) [1; 10; 50; 90; 99]).
Proof.
  intro A. assert (A' := A). destruct A' as (_ & _ & _ & _ & _ & _ & Pd & P0 & P1 & _).
  destruct (prepare_runs p z d f h0 h1 ipol A) as (q0 & w & EP & (Rf & Rd & Rv & RL & RK & RW & RX & RM) & W & PL & QL & WP & WG & W0 & W1 & Z1 & Z2).
  assert (G := curvature_pos). rewrite <- WG in G.
  destruct (terrain_exist (script_path d z) h0 h1 (w GME) W P0 P1 G) as (u & GEO & DH0 & HH0 & HH1 & LL0 & LL1 & AN). rewrite PL in AN, GEO.
  set (w' := fun k => if memn k terrain_keys then u k else w k).
  destruct (reference_exists w' true) as (v & VI & RP).
  assert (VW : forall k, In k [WN; GME; ENS; HG0; HG1; ZGR; ZGI] -> v k = w k).
  { intros k I. rewrite VI by (cbn in I |- *; tauto). cbn in I. repeat (destruct I as [<-|I]; [reflexivity|]). destruct I. }
  assert (VU : forall k, In k terrain_keys -> v k = u k).
  { intros k I. rewrite VI by (cbn in I |- *; tauto). cbn in I. repeat (destruct I as [<-|I]; [reflexivity|]). destruct I. }
  assert (PH : physical v).
  { unfold physical. rewrite (VW WN), (VW GME), (VW HG0), (VW HG1), (VW ZGR), (VU DH), (VU HE0), (VU HE1), (VU DL0), (VU DL1) by inks. rewrite W0, W1. repeat split; lra. }
  assert (RF : forall d, 0 < d -> reflects v d) by (intros; left; rewrite VW by inks; exact Z2).
  assert (GP := RP). destruct GP as (GP & DP & LP). assert (PH' := PH). destruct PH' as (WPv & GPv & _ & _ & _ & HE0p & HE1p & L0 & L1 & _).
  assert (GP' := GP). destruct GP' as (g1 & g2 & g3 & g4 & _). assert (LA : 0 < v DLA) by (rewrite g4; lra).
  assert (F0 : 0 < fit_d0 v) by (apply d0_pos; assumption). assert (F1 : 0 < fit_d1 v) by (apply d1_pos; assumption).
  exists v. split.
  { split; [rewrite (VW WN), (VW GME), (VW ENS), (VW ZGR), (VW ZGI) by inks; exact QL|]. split; [rewrite VW by inks; exact W0|]. split; [rewrite VW by inks; exact W1|]. split; [|exact RP].
    intros q E. destruct (GEO v q ltac:(rewrite VW by inks; exact W0) ltac:(rewrite VW by inks; exact W1) ltac:(apply VW; inks) E) as (r & Er & Vr & _). exists r. split; [exact Er|].
    intros k I. rewrite VU by exact I. apply Vr. exact I. }
  split.
  { intros D2 L. unfold scat_angle, scat_d5. rewrite g4, (VU THE0), (VU THE1), (VU DL0), (VU DL1), (VW GME) by inks. apply AN; [|lra]. rewrite g3, g1, g2 in L. rewrite (VU HE0), (VU HE1), (VW GME) in L by inks. exact L. }
  split; [apply (ground_curve v true); assumption|].
  (* the run *)
  destruct (GEO w q0 W0 W1 eq_refl) as (q1 & E1 & V1 & D1).
  { split; [exact Rf|]. split; [exact W|]. split; [intros k I; apply Rv; cbn in I |- *; tauto|]. rewrite W0, W1. auto. }
  assert (F1' := qlrpfl_geom_frame RA q0 q1 E1). cbn beta in F1'.
  destruct (control_total q1 (-1) 5 11 0) as [q2 E2]; [rewrite (fr_pz _ _ _ _ _ _ F1') by reflexivity; assumption..|].
  destruct (prep_control_spec RA (-1) q1 q2 E2) as (lv & mx & kx & X1 & X2 & X3 & M2 & L2 & MV2 & K2 & F2).
  rewrite (fr_pz _ _ _ _ _ LVAR F1') in X1 by reflexivity. rewrite (fr_pz _ _ _ _ _ MDVARX F1') in X2 by reflexivity. rewrite (fr_pz _ _ _ _ _ KLIMX F1') in X3 by reflexivity. assert (lv = 5%Z) by congruence. assert (mx = 11%Z) by congruence. assert (kx = 0%Z) by congruence. subst lv mx kx. cbn in L2, MV2, K2.
  assert (KL2 : pz q2 KLIM = Some 5%Z) by (rewrite K2, (fr_pz _ _ _ _ _ _ F1') by reflexivity; exact RK).
  assert (KW2 : pz q2 KWX = Some 0%Z) by (rewrite (fr_pz _ _ _ _ _ _ F2), (fr_pz _ _ _ _ _ _ F1') by reflexivity; exact RW).
  assert (D2 : pn q2 DIST = Some (1000 * d)) by (rewrite (fr_pn _ _ _ _ _ _ F2) by reflexivity; exact D1).
  assert (V2 : values q2 (ENS :: setup_inputs) v).
  { intros k I. rewrite (fr_pn _ _ _ _ _ _ F2) by reflexivity. cbn in I. repeat (destruct I as [<-|I]; [first
      [solve [rewrite VU by inks; apply V1; inks] | solve [rewrite VW by inks; rewrite (fr_pn _ _ _ _ _ _ F1') by reflexivity; apply Rv; inks]]|]). destruct I. }
  assert (S2 : stat_on q2) by (split; [eapply st_full; [exact L2 | lia] | exists 5%Z, 5%Z, 11%Z; auto]).
  assert (PF2 : ppfl q2 = Some (script_path d z) /\ pn q2 DKM = Some d).
  { split; [destruct F2 as (_ & _ & _ & ->); destruct F1' as (_ & _ & _ & ->); exact Rf | rewrite (fr_pn _ _ _ _ _ _ F2), (fr_pn _ _ _ _ _ _ F1') by reflexivity; exact Rd]. }
  assert (EQ : p2p_prepare RA z p = lrprop RA 0 q2) by (rewrite EP; unfold qlrpfl; rewrite E1; cbn [bind]; rewrite E2; reflexivity).
  destruct (mapM_pct (p2p_qr RA)) as [qr Eqr]. destruct (qerfi_total qr) as (zr & Ezr & Lzr & _). destruct (mapM_pct (p2p_qc RA)) as [qc Eqc]. destruct (qerfi_total qc) as (zc & Ezc & Lzc & _).
  assert (RUN : itmlogic_p2p RA z p = let! p := lrprop RA 0 q2 in
    let! wn := getn p WN in let! dist := getn p DIST in let! l := np_log (#2 * wn * dist)%num in let fs := (8685890 // 1000000 * l)%num in let! f := getpfl p in
    let! (kind, mode) := p2p_classify RA (pf_xi f) p in let! d := getn p DKM in let! rows := p2p_table RA d fs (combine (p2p_qr RA) zr) (combine (p2p_qc RA) zc) p in
    Ok (P2POut RA kind mode fs rows)).
  { unfold itmlogic_p2p. cbv zeta. rewrite Eqr. cbn [bind]. change (num RA) with R in *. rewrite Ezr. cbn [bind]. rewrite Eqc. cbn [bind]. rewrite Ezc. cbn [bind]. rewrite EQ. reflexivity. }
  rewrite RUN. clear RUN.
  destruct (setup_exact v true PH RP q2 (-1) 0 V2 M2 eq_refl KW2) as [_ BAD].
  assert (BAD' : ~ curve_ok v -> lrprop RA 0 q2 = Err NotReal).
  { intro N. specialize (BAD N). unfold lrprop. cbn [RA n_div n_Z]. rewrite r_div_ok by lra. cbn [bind]. rewrite (proj2 (pz_getz RA q2 MDP _) M2). cbn [bind]. change (negb (-1 =? 0)%Z) with true. cbv iota.
    change (num RA) with R in *. rewrite BAD. reflexivity. }
  split.
  { intro N. rewrite (BAD' N). reflexivity. }
  assert (MAIN : curve_ok v -> scatters v (1000 * d) ->
    (runs_at v (1000 * d) /\ exists q, lrprop RA 0 q2 = Ok q /\ mid_calls v q /\ pz q MDP = Some (-1)%Z /\ (exists a, pn q AREF = Some a) /\ pn q DIST = Some (1000 * d) /\ (v DLSA <= 1000 * d -> exists y, pn q DX = Some y)) \/
    (~ runs_at v (1000 * d) /\ lrprop RA 0 q2 = Err ZeroDivisionError)).
  { intros CO SC. destruct (setup_core_exact v true PH RP q2 (-1) 0 V2 M2 eq_refl KW2 CO) as (q3 & E3 & C3 & M3 & W3 & D3). assert (FS := setup_flag q2 q3 E3).
    rewrite (lrprop_setup_rest 0 q2 q3 (-1) M2 ltac:(lia) E3).
    assert (MC : mid_calls v q3) by (split; [exact C3|]; split; intro; congruence).
    assert (DD : if (0 <=? -1)%Z then 1000 * d = 0 else pn q3 DIST = Some (1000 * d)) by (cbn; rewrite D3; exact D2).
    exact (rest_exact_at v true PH RP RF 0 q3 (-1)%Z (1000 * d)%R MC M3 DD ltac:(lra) SC (or_introl W3)). }
  split.
  { intros [q Eq] SC. rewrite EQ in Eq. destruct (Classical_Prop.classic (curve_ok v)) as [CO|N]; [|rewrite (BAD' N) in Eq; discriminate Eq]. split; [exact CO|].
    destruct (MAIN CO SC) as [[R _]|[_ E]]; [intro DZ; exact (proj1 (runs_iff_at v _ RF F0 F1 SC) R DZ) | congruence]. }
  split.
  { intros CO SC DZ. destruct (MAIN CO SC) as [[R _]|[_ E]]; [exfalso; exact (proj1 (runs_iff_at v _ RF F0 F1 SC) R DZ)|]. rewrite E. reflexivity. }
  intros CO SC DZ. destruct (MAIN CO SC) as [(_ & q & E & C & M & AR & D & DX_)|[R _]]; [|exfalso; apply R, (runs_iff_at v _ RF F0 F1 SC); exact DZ].
  rewrite E. cbn [bind]. assert (Fl := lrprop_frame RA 0 q2 q E). cbn beta in Fl.
  assert (O : ongoing_at v (-1) q) by (split; [exact C | split; assumption]). assert (S := stat_lrprop _ _ _ E S2).
  assert (VQ := proj1 (proj1 C)). rewrite (proj2 (pn_getn RA q WN _) (VQ WN ltac:(inks))), (proj2 (pn_getn RA q DIST _) D). cbn [bind np_log RA n_mul n_Z].
  rewrite r_log_ok by (repeat apply Rmult_lt_0_compat; lra). cbn [bind]. cbv zeta.
  assert (ppfl q = Some (script_path d z)) as PFq by (destruct Fl as (_ & _ & _ & ->); apply PF2). unfold getpfl. rewrite PFq. cbn [opt_res bind].
  destruct (classify_run (pf_xi (script_path d z)) (1000 * d) (v DLSA) q D (VQ DLSA ltac:(inks)) DX_) as [[kd md] Ek]. rewrite Ek. cbn [bind].
  rewrite (proj2 (pn_getn RA q DKM d)) by (rewrite (fr_pn _ _ _ _ _ _ Fl) by reflexivity; apply PF2). cbn [bind].
  match goal with |- context [p2p_table RA d ?fs ?a ?b q] => destruct (p2p_table_run v PH d fs (1000 * d) a b q ltac:(lra) O S D) as (rows & Er & Mr) end.
  change (num RA) with R in *. rewrite Er. cbn [bind]. eexists. split; [reflexivity|]. cbn [out_fs out_rows]. split; [cbn [n_lit RA]; lra|].
  rewrite Mr. apply mapM_len in Eqr, Eqc. rewrite !fst_combine by (first [rewrite Lzr; exact Eqr | rewrite Lzc; exact Eqc]). reflexivity.
Qed.
Lemma path_exact (p : prop RA) z d f h0 h1 ipol : path_request p z d f h0 h1 ipol -> exists v, path_values z d f h0 h1 ipol v /\
  (d <= 200 -> scatters v (1000 * d)) /\ (ground_ok v -> curve_ok v) /\
  (~ curve_ok v -> itmlogic_p2p RA z p = Err NotReal) /\
  (curve_ok v -> scatters v (1000 * d) -> divides_by_zero v (1000 * d) -> itmlogic_p2p RA z p = Err ZeroDivisionError) /\
  (curve_ok v -> scatters v (1000 * d) -> ~ divides_by_zero v (1000 * d) -> exists out, itmlogic_p2p RA z p = Ok out /\
     out_fs RA out = 8.685890 * ln (2 * v WN * (1000 * d)) /\
     map fst (out_rows RA out) = flat_map (fun r => map (fun c => (d, r, c)) [50; 90; 10]) [1; 10; 50; 90; 99]).
Proof. intro A. destruct (path_exact_prepared p z d f h0 h1 ipol A) as (v & H1 & H2 & H3 & H4 & _ & H5). exists v. auto. Qed.
(** What can be prepared is answered. *)
Lemma prepared_answered (p : prop RA) z d f h0 h1 ipol q : path_request p z d f h0 h1 ipol -> d <= 200 -> p2p_prepare RA z p = Ok q -> exists out, itmlogic_p2p RA z p = Ok out.
Proof.
  intros A D E. destruct (path_exact_prepared p z d f h0 h1 ipol A) as (v & _ & S & _ & _ & X & _ & O). specialize (S D).
  destruct (X (ex_intro _ q E) S) as [C N]. destruct (O C S N) as (out & H & _). exists out. exact H.
Qed.
