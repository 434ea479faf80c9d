(** Totality of ascat, of the scatter set-up and of lrprop over the exact reals. *)
From Verif Require Import Frame SpecLr PfFrame PfLrGen PfRegime PfCurves PfCurves2 PfH0f PfAtten PfAvarReal PfStats PfSetup PfScat PfLos PfLosRef PfRef PfRealRun SpecTotal PfTotal PfTotal2 Arith.
Open Scope R_scope.

Lemma h0_total (p : prop RA) (v : nkey -> R) (d th r1 r2 : R) : values p [AD; RR; ETQ; H0S] v ->
  0 <= v AD -> v AD < d -> 0 < v RR -> 0 < r1 -> 0 < r2 -> exists h, ascat_h0 RA d th r1 r2 p = Ok h.
Proof.
  intros V A D P1 R1 R2. set (T := fun m : res R => exists c, m = Ok c). change (T (ascat_h0 RA d th r1 r2 p)). unfold ascat_h0.
  sr V. runfold. sd lra. assert (S : 0 < (d - v AD) / (d + v AD)) by (apply Rdiv_pos; lra). set (ss := (d - v AD) / (d + v AD)) in *. clearbody ss.
  sr V. sd lra. set (q := v RR / ss). assert (Q : 0 < q) by (apply Rdiv_pos; lra). clearbody q.
  sd lra. sr V. sd lra.
  match goal with |- T (bind (r_powZ ?x 6) _) => se (r_powZ_6 x) end. cbn [bind]. sd lra.
  match goal with |- context [r_div (14142 / 10000) r1] => idtac end.
  set (et := (_ / (17556 / 10))). clearbody et. set (ett := if r_ltb et 1 then 1 else et).
  assert (E : 1 <= ett) by (unfold ett, r_ltb; destruct (Rlt_dec et 1); lra). clearbody ett.
  destruct (h0f_total r1 ett ltac:(lra)) as [h1 F1]. se F1. destruct (h0f_total r2 ett ltac:(lra)) as [h2 F2]. se F2. clear F1 F2.
  se (r_log_ok ett ltac:(lra)).
  match goal with |- T (bind (r_log ?x) _) => assert (0 < x) as L1; [unfold r_ltb; destruct (Rlt_dec (1 / 10) ss); lra | se (r_log_ok x L1)] end.
  match goal with |- T (bind (r_log ?x) _) => assert (0 < x) as L2; [unfold r_ltb; repeat match goal with |- context [Rlt_dec ?a ?b] => destruct (Rlt_dec a b) end; lra | se (r_log_ok x L2)] end.
  match goal with |- T (bind ?m _) => assert (exists h, m = Ok h) as [h EH] end.
  { destruct (r_ltb et 1); [|eauto].
    match goal with |- exists h, ?m = _ => set (T2 := fun mm : res R => exists c, mm = Ok c); change (T2 m) end.
    sd lra. sd lra. match goal with |- T2 (bind (r_powZ ?x 2) _) => se (r_powZ_2 x) end. sd lra.
    match goal with |- T2 (bind (r_log ?x) _) => assert (0 < x) as L3; [|se (r_log_ok x L3); eexists; reflexivity] end.
    apply Rdiv_pos; [|lra]. apply Rmult_lt_0_compat; [|lra]. apply pow_lt. apply Rmult_lt_0_compat; [pose proof (Rdiv_pos (14142 / 10000) r1 ltac:(lra) R1) | pose proof (Rdiv_pos (14142 / 10000) r2 ltac:(lra) R2)]; lra. }
  se EH. sr V. eexists. reflexivity.
Qed.
Definition ascat_in : list nkey := [AD; RR; ETQ; H0S; ASCAT1; THE0; THE1; GME; WN; HE0; HE1; THA; ENS].
Lemma ascat_total (p : prop RA) (v : nkey -> R) (d : R) : values p ascat_in v -> 0 <= v AD -> v AD < d -> 0 < v RR ->
  0 < v WN -> 0 < v HE0 -> 0 < v HE1 -> 0 < scat_angle v d -> 0 < angle_at v d -> exists q, ascat RA d p = Ok q.
Proof.
  intros V A D P1 W H0 H1 S AN. set (T := fun m : res (prop RA) => exists c, m = Ok c). change (T (ascat RA d p)). unfold ascat.
  sr V. runfold.
  match goal with |- T (bind ?m _) => assert (exists h p', m = Ok (h, p') /\ (forall k, k <> ASCAT1 -> k <> H0S -> pn p' k = pn p k)) as (h & p' & EH & K) end.
  { destruct (r_ltb 15 (v H0S)); [eauto|]. 
    do 6 rd V. change (v THE0 + v THE1 + d * v GME) with (scat_angle v d).
    set (r1 := 2 * v WN * scat_angle v d * v HE0). set (r2 := 2 * v WN * scat_angle v d * v HE1).
    assert (R1 : 0 < r1) by (unfold r1; do 3 (apply Rmult_lt_0_compat; [|assumption]); lra).
    assert (R2 : 0 < r2) by (unfold r2; do 3 (apply Rmult_lt_0_compat; [|assumption]); lra).
    set (b := (_ && _)%bool). set (p1 := if b then _ else p).
    assert (K1 : forall k, k <> ASCAT1 -> pn p1 k = pn p k).
    { intros k N. unfold p1. destruct b; [|reflexivity]. unfold setn. cbn. destruct (nkey_eqb ASCAT1 k) eqn:Z; [|reflexivity]. apply nkey_eqb_eq in Z. congruence. }
    assert (exists a, pn p1 ASCAT1 = Some a) as [a Ea].
    { unfold p1. destruct b; [eexists; reflexivity | exists (v ASCAT1); apply V; inks]. }
    destruct (h0_total p1 v d (scat_angle v d) r1 r2) as [h Eh]; try assumption.
    { intros k I. cbn in I. destruct I as [<-|[<-|[<-|[<-|[]]]]]; (rewrite K1 by discriminate; apply V; inks). }
    change (num RA) with R in *. rewrite Eh. cbn [bind]. rewrite (proj2 (pn_getn RA p1 ASCAT1 a) Ea). cbn [bind].
    eexists _, _. split; [reflexivity|]. intros k N1 N2. destruct (negb _); [|apply K1; exact N1].
    unfold setn. cbn. destruct (nkey_eqb H0S k) eqn:Z; [apply nkey_eqb_eq in Z; congruence | apply K1; exact N1]. }
  se EH. clear EH. cbv beta iota.
  assert (V' : values p' [THA; GME; WN; ENS] v) by (intros k I; cbn in I; destruct I as [<-|[<-|[<-|[<-|[]]]]]; (rewrite K by discriminate; apply V; inks)).
  sr V'. sr V'. change (v THA + d * v GME) with (angle_at v d).
  assert (TD : 0 < angle_at v d * d) by (apply Rmult_lt_0_compat; lra).
  se (ahd_spec (angle_at v d * d) TD). sr V'. se (r_powZ_4 (angle_at v d)).
  assert (TL : 0 < 477 / 10 * v WN * angle_at v d ^ 4) by (apply Rmult_lt_0_compat; [lra | apply pow_lt; exact AN]).
  se (r_log_ok _ TL). sr V'. sd lra. cbn [bind]. eexists. reflexivity.
Qed.

Definition scat_in : list nkey := [WN; GME; ENS; HE0; HE1; DL0; DL1; THE0; THE1; DLA; THA; DLSA; XAE; AED; EMD].
Lemma skew_bound v : 0 < v DL0 -> 0 < v DL1 -> 0 <= skew v < v DL0 + v DL1.
Proof. intros. unfold skew. split; [apply Rabs_pos|]. apply Rabs_def1; lra. Qed.
Lemma ratio_pos v : 0 < v HE0 -> 0 < v HE1 -> 0 < ratio v.
Proof. intros. unfold ratio. destruct (Rlt_dec _ _); apply Rdiv_pos; assumption. Qed.
Definition not_parallel (v : nkey -> R) : Prop :=
  let a6 := scatter v (scat_d6 v) (path_gain v (scat_d6 v)) in let a5 := scatter v (scat_d5 v) (near_gain v) in
  a5 < 1000 -> v EMD <> (a6 - a5) / 200000.
Lemma scat_setup_exact (p : prop RA) v : values p scat_in v -> pn p ASCAT1 = Some 0 -> 0 < v WN -> 0 < v GME -> 0 < v HE0 -> 0 < v HE1 -> 0 < v DL0 -> 0 < v DL1 ->
  bending v -> 0 < scat_angle v (scat_d5 v) -> (not_parallel v -> exists q, lr_scat_setup RA p = Ok q) /\ (~ not_parallel v -> lr_scat_setup RA p = Err ZeroDivisionError).
Proof.
  intros V A1 W G H0 H1 L0 L1 B SA. assert (LA : v DLA = v DL0 + v DL1) by (destruct B as [-> _]; reflexivity).
  set (T := fun m : res (prop RA) => (not_parallel v -> exists q, m = Ok q) /\ (~ not_parallel v -> m = Err ZeroDivisionError)). change (T (lr_scat_setup RA p)). unfold lr_scat_setup.
  sr V. sr V. sr V. sr V. cbn [RA n_div n_sub n_ltb n_opp n_Z]. sd lra.
  match goal with |- T (bind ?m _) => assert (EX : m = Ok (skew v, ratio v)) end.
  { unfold skew, ratio, r_ltb. destruct (Rlt_dec (v DL0 - v DL1) 0) as [L|L].
    - assert (0 < v HE1 / v HE0) by (apply Rdiv_pos; assumption). rewrite r_div_ok by lra. cbn [bind]. rewrite Rabs_left by exact L.
      destruct (Rlt_dec (v DL0) (v DL1)); [|lra]. do 2 f_equal. apply inv_ratio; lra.
    - rewrite Rabs_right by lra. destruct (Rlt_dec (v DL0) (v DL1)); [lra | reflexivity]. }
  se EX. clear EX. cbv beta iota. dsimp. sr V. dsimp. sr V.
  change (@n_add RA (v DLA) (200000 // 1)%num) with (v DLA + 200000 / 1).
  set (d5 := v DLA + 200000 / 1). change (@n_add RA d5 (200000 // 1)%num) with (d5 + 200000 / 1).
  assert (D5 : d5 = scat_d5 v) by (unfold d5, scat_d5; lra). assert (D6 : d5 + 200000 / 1 = scat_d6 v) by (unfold d5, scat_d6; lra).
  rewrite D6. clearbody d5. clear D6. subst d5. set (q0 := setn _ H0S _). 
  assert (P0 : forall k, In k scat_in -> pn q0 k = Some (v k)) by (intros k I; rewrite <- (V k I); cbn in I; repeat (destruct I as [<-|I]; [reflexivity|]); destruct I).
  assert (KV0 : forall k, In k scat_ins -> v k = vals q0 k).
  { intros k I. symmetry. apply vals_some. apply P0. cbn in I |- *. repeat (destruct I as [<-|I]; [inks|]). destruct I. }
  pose proof (skew_bound v L0 L1) as SB. pose proof (ratio_pos v H0 H1) as RP. pose proof (excess_pos v) as EP.
  assert (AN5 : 0 < angle_at v (scat_d5 v)) by (rewrite angle_excess by exact B; unfold scat_d5; nra).
  assert (AN6 : 0 < angle_at v (scat_d6 v)) by (rewrite angle_excess by exact B; unfold scat_d6; nra).
  assert (SA6 : 0 < scat_angle v (scat_d6 v)) by (unfold scat_angle, scat_d5, scat_d6 in *; nra).
  assert (VQ0 : vals q0 AD = skew v /\ vals q0 RR = ratio v /\ vals q0 H0S = -15) by (split; [reflexivity | split; reflexivity]).
  destruct VQ0 as (VA0 & VR0 & H00).
  assert (PRE : scat_pre (vals q0)).
  { split; [|split].
    - rewrite <- (skew_ext _ _ KV0). reflexivity.
    - rewrite <- (ratio_ext _ _ KV0). reflexivity.
    - rewrite <- (KV0 ENS) by inks. transitivity ((567 / 100000000 * v ENS - 232 / 100000) * v ENS + 31 / 1000); [reflexivity|].
      replace 0.00000567 with (567 / 100000000) by lra. replace 0.00232 with (232 / 100000) by lra. replace 0.031 with (31 / 1000) by lra. reflexivity. }
  assert (V0 : values q0 [AD; RR; ETQ; H0S] (vals q0)) by (intros k I; cbn in I; repeat (destruct I as [<-|I]; [reflexivity|]); destruct I).
  assert (A0 : pn q0 ASCAT1 = Some 0) by exact A1.
  assert (IN0 : values q0 ascat_in (vals q0)).
  { intros k I. cbn in I. repeat (destruct I as [<-|I]; [first [solve [apply V0; inks] | solve [rewrite <- KV0 by inks; apply P0; inks] | idtac]|]); [|destruct I].
    rewrite A0. f_equal. symmetry. apply vals_some. exact A0. }
  clearbody q0. 
  destruct (ascat_total q0 (vals q0) (scat_d6 v) IN0) as [q1 E6].
  { rewrite VA0. lra. } { rewrite VA0. unfold scat_d6. lra. } { rewrite VR0. exact RP. } { rewrite <- KV0 by inks. exact W. } { rewrite <- KV0 by inks. exact H0. } { rewrite <- KV0 by inks. exact H1. }
  { unfold scat_angle. rewrite <- !(KV0 THE0), <- !(KV0 THE1), <- !(KV0 GME) by inks. exact SA6. }
  { unfold angle_at. rewrite <- !(KV0 THA), <- !(KV0 GME) by inks. exact AN6. }
  se E6. assert (F6 := E6). apply ascat_frame in F6.
  apply (ascat_value (scat_d6 v) 0 q0 q1 PRE V0 A0) in E6. destruct E6 as (B6 & _ & K6). destruct K6 as [_ K6]; [rewrite H00; lra|]. specialize (K6 ltac:(lra)).
  assert (C6 : chosen (vals q0) (scat_d6 v) = path_gain v (scat_d6 v)).
  { unfold chosen. rewrite H00, <- (gain_ext _ _ KV0). destruct (Rlt_dec 15 (-15)); [lra|]. destruct (Rle_dec 0 (-15)); [lra|]. destruct (Rlt_dec 15 (path_gain v (scat_d6 v))); reflexivity. }
  rewrite C6, <- (scatter_ext _ _ KV0) in B6. rewrite C6, H00, <- !(norm_ext _ _ KV0), <- !(KV0 HE0), <- !(KV0 HE1) in K6 by inks. 
  change (pn q1 H0S = Some (kept_gain v)) in K6. clear C6.
  se (proj2 (pn_getn RA q1 ASCAT1 _) B6).
  assert (P1 : forall k, In k scat_in -> pn q1 k = Some (v k)).
  { intros k I. rewrite <- (P0 k I). apply (fr_pn _ _ _ _ _ k F6). cbn in I. repeat (destruct I as [<-|I]; [reflexivity|]). destruct I. }
  assert (KV1 : forall k, In k scat_ins -> v k = vals q1 k).
  { intros k I. symmetry. apply vals_some. apply P1. cbn in I |- *. repeat (destruct I as [<-|I]; [inks|]). destruct I. }
  assert (N1 : forall k, In k [AD; RR; ETQ] -> pn q1 k = Some (vals q0 k)).
  { intros k I. rewrite (fr_pn _ _ _ _ _ k F6); [apply V0; cbn in I |- *; tauto|]. cbn in I. repeat (destruct I as [<-|I]; [reflexivity|]). destruct I. }
  assert (M1 : forall k, In k [AD; RR; ETQ] -> vals q1 k = vals q0 k) by (intros k I; apply vals_some; apply N1; exact I).
  assert (PRE1 : scat_pre (vals q1)).
  { destruct PRE as (X1 & X2 & X3). rewrite <- (KV0 ENS) in X3 by inks. unfold scat_pre. rewrite (M1 AD), (M1 RR), (M1 ETQ), <- (skew_ext _ _ KV1), <- (ratio_ext _ _ KV1), <- !(KV1 ENS) by inks. repeat split; assumption. }
  assert (V1 : values q1 [AD; RR; ETQ; H0S] (vals q1)).
  { intros k I. cbn in I. destruct I as [<-|[<-|[<-|[<-|[]]]]]; try (rewrite M1 by inks; apply N1; inks). rewrite K6. f_equal. symmetry. apply vals_some. exact K6. }
  assert (IN1 : values q1 ascat_in (vals q1)).
  { intros k I. cbn in I. repeat (destruct I as [<-|I]; [first [solve [apply V1; inks] | solve [rewrite <- KV1 by inks; apply P1; inks] | idtac]|]); [|destruct I].
    rewrite B6. f_equal. symmetry. apply vals_some. exact B6. }
  destruct (ascat_total q1 (vals q1) (scat_d5 v) IN1) as [q2 E5].
  { rewrite M1, VA0 by inks. lra. } { rewrite M1, VA0 by inks. unfold scat_d5. lra. } { rewrite M1, VR0 by inks. exact RP. } { rewrite <- KV1 by inks. exact W. } { rewrite <- KV1 by inks. exact H0. } { rewrite <- KV1 by inks. exact H1. }
  { unfold scat_angle. rewrite <- !(KV1 THE0), <- !(KV1 THE1), <- !(KV1 GME) by inks. exact SA. }
  { unfold angle_at. rewrite <- !(KV1 THA), <- !(KV1 GME) by inks. exact AN5. }
  se E5. assert (F5 := E5). apply ascat_frame in F5.
  apply (ascat_value (scat_d5 v) _ q1 q2 PRE1 V1 B6) in E5. destruct E5 as (B5 & _ & _).
  assert (C5 : chosen (vals q1) (scat_d5 v) = near_gain v) by (unfold chosen, near_gain; rewrite (vals_some _ _ _ K6), <- (gain_ext _ _ KV1); reflexivity).
  rewrite C5, <- (scatter_ext _ _ KV1) in B5. se (proj2 (pn_getn RA q2 ASCAT1 _) B5).
  assert (P2 : forall k, In k scat_in -> pn q2 k = Some (v k)).
  { intros k I. rewrite <- (P1 k I). apply (fr_pn _ _ _ _ _ k F5). cbn in I. repeat (destruct I as [<-|I]; [reflexivity|]). destruct I. }
  sr P2. sr P2. unfold T, not_parallel.
  set (a6 := scatter v (scat_d6 v) _) in *. set (a5 := scatter v (scat_d5 v) _) in *. clearbody a6 a5. cbv zeta. runfold.
  destruct (r_ltb a5 1000) eqn:BB; rbool; [|cbn [bind]; split; [intros _; eexists; reflexivity | intro N; exfalso; apply N; lra]].
  rewrite (r_div_ok (a6 - a5)) by lra. cbn [bind]. dsimp. do 3 rd P2. rewrite r_log_ok by lra. cbn [bind].
  split; intro N.
  - rewrite r_div_ok; [cbn [bind]; eexists; reflexivity|]. intro Q. apply (N BB). replace 200000 with (200000 / 1) by lra. lra.
  - destruct (Req_dec (v EMD) ((a6 - a5) / 200000)) as [Q|Q]; [|exfalso; apply N; intros _; exact Q].
    unfold r_div. destruct (Req_EM_T _ 0) as [_|X]; [reflexivity | exfalso; apply X; rewrite Q; replace (200000 / 1) with 200000 by lra; lra].
Qed.
Lemma scat_setup_total (p : prop RA) v : values p scat_in v -> pn p ASCAT1 = Some 0 -> 0 < v WN -> 0 < v GME -> 0 < v HE0 -> 0 < v HE1 -> 0 < v DL0 -> 0 < v DL1 ->
  bending v -> scat_ok v -> exists q, lr_scat_setup RA p = Ok q.
Proof. intros V A1 W G H0 H1 L0 L1 B (SA & NE). apply (scat_setup_exact p v); assumption. Qed.

(** ** lrprop *)
Definition all_keys : list nkey := ENS :: setup_keys.
Definition has (p : prop RA) (ks : list nkey) : Prop := forall k, In k ks -> exists x, pn p k = Some x.
Definition core (v : nkey -> R) (p : prop RA) : Prop :=
  values p all_keys v /\ (exists k, pz p KWX = Some k) /\ (exists b, pb p WLOS = Some b) /\
  ((pb p WSCAT = Some false /\ pn p ASCAT1 = Some 0) \/ (pb p WSCAT = Some true /\ has p [DX; AES; EMS])).
Lemma values_keep nk zk bk (p q : prop RA) ks v : same_except nk zk bk p q -> forallb (fun k => negb (memn k nk)) ks = true -> values p ks v -> values q ks v.
Proof.
  intros F B V k I. rewrite <- (V k I). apply (fr_pn _ _ _ _ _ k F). rewrite forallb_forall in B. specialize (B k I). apply negb_true_iff in B. exact B.
Qed.
Lemma bending_of v : geometry_params v -> bending v.
Proof. intros (_ & _ & _ & A & B & _). split; assumption. Qed.
Lemma dlsa_pos v : geometry_params v -> 0 < v GME -> 0 < v HE0 -> 0 < v HE1 -> 0 < v DLSA.
Proof. intros (A & B & C & _) G H0 H1. rewrite C, A, B. apply Rplus_lt_0_compat; apply sqrt_lt_R0; apply Rdiv_pos; lra. Qed.

Section Rest.
Context (v : nkey -> R) (b : bool).
Hypothesis PH : physical v.
Hypothesis RP : reference_params v b.
(** The stages after the set-up. *)
Definition rest (d : R) (p : prop RA) : res (prop RA) :=
  let! p := lr_dist RA d p in let! p := lr_los RA p in let! p := lr_scat RA p in let! aref := getn p AREF in Ok (setn p AREF (pymax aref (@n_Z RA 0))).
Lemma dist_runs d p m x : core v p -> pz p MDP = Some m -> (if (0 <=? m)%Z then x = d else pn p DIST = Some x) ->
  exists q, lr_dist RA d p = Ok q /\ core v q /\ pn q DIST = Some x /\ pz q MDP = Some (if (0 <=? m)%Z then 0 else m)%Z /\ pn q AREF = pn p AREF /\ pb q WLOS = pb p WLOS.
Proof using.
  intros (V & (k & K) & F & SC) M X. assert (exists q, lr_dist RA d p = Ok q) as [q E].
  { unfold lr_dist. rewrite (proj2 (pz_getz RA p MDP m) M). cbn [bind]. destruct (0 <=? m)%Z.
    - dsimp. destruct (_ >? _)%num; [|eauto]. rewrite (proj2 (pz_getz RA p KWX k) K). cbn [bind]. rewrite (proj2 (pn_getn RA p DMIN _) (V DMIN ltac:(inks))). cbn [bind]. eauto.
    - rewrite (proj2 (pn_getn RA p DIST x) X). cbn [bind]. destruct (_ >? _)%num; [|eauto]. rewrite (proj2 (pz_getz RA p KWX k) K). cbn [bind].
      rewrite (proj2 (pn_getn RA p DMIN _) (V DMIN ltac:(inks))). cbn [bind]. eauto. }
  exists q. split; [exact E|]. assert (FR := E). apply lr_dist_frame in FR. 
  assert (Y : pn q DIST = Some x /\ pz q MDP = Some (if (0 <=? m)%Z then 0 else m)%Z /\ exists k', pz q KWX = Some k').
  { unfold lr_dist in E. rewrite (proj2 (pz_getz RA p MDP m) M) in E. cbn [bind] in E. destruct (0 <=? m)%Z.
    - subst x. dsimp_in E. destruct (_ >? _)%num; [|apply ok_inj in E; subst q; repeat split; eexists; exact K].
      apply bind_inv in E as [k' [_ E]]. apply bind_inv in E as [dm [_ E]]. apply ok_inj in E. subst q. repeat split. eexists. reflexivity.
    - rewrite (proj2 (pn_getn RA p DIST x) X) in E. cbn [bind] in E. destruct (_ >? _)%num; [|apply ok_inj in E; subst q; repeat split; try assumption; eexists; exact K].
      apply bind_inv in E as [k' [_ E]]. apply bind_inv in E as [dm [_ E]]. apply ok_inj in E. subst q. repeat split; try assumption. eexists. reflexivity. }
  destruct Y as (Y1 & Y2 & Y3). split; [|split; [exact Y1 | split; [exact Y2 | split]]].
  - split; [eapply values_keep; [exact FR | reflexivity | exact V]|]. split; [exact Y3|].
    rewrite !(fr_pb _ _ _ _ _ _ FR), (fr_pn _ _ _ _ _ ASCAT1 FR) by reflexivity. split; [exact F|].
    destruct SC as [SC|[SC H]]; [left; exact SC|]. right. split; [exact SC|]. intros j J. destruct (H j J) as [y Y]. exists y. rewrite <- Y. apply (fr_pn _ _ _ _ _ j FR).
    cbn in J. destruct J as [<-|[<-|[<-|[]]]]; reflexivity.
  - apply (fr_pn _ _ _ _ _ AREF FR). reflexivity.
  - apply (fr_pb _ _ _ _ _ WLOS FR). reflexivity.
Qed.
Lemma los_runs p x : core v p -> pn p DIST = Some x -> (x < v DLSA -> los_ok v) ->
  exists q, lr_los RA p = Ok q /\ core v q /\ pn q DIST = Some x /\ pz q MDP = pz p MDP /\
    ((exists a, pn p AREF = Some a) \/ (pb p WLOS = Some false /\ 0 < x < v DLSA) -> exists a, pn q AREF = Some a).
Proof using PH RP.
  destruct PH as (W & G & D & G0 & G1 & H0 & H1 & L0 & L1 & Z). destruct RP as (GP & _ & _). assert (S := dlsa_pos v GP G H0 H1).
  assert (LA : 0 < v DLA) by (destruct GP as (_ & _ & _ & -> & _); lra).
  intros C X O. assert (C' := C). destruct C' as (V & (k & K) & (wl & F) & SC).
  unfold lr_los. rewrite (proj2 (pn_getn RA p DIST x) X), (proj2 (pn_getn RA p DLSA _) (V DLSA ltac:(inks))). cbn [bind RA n_ltb n_Z].
  unfold r_ltb at 1. destruct (Rlt_dec x (v DLSA)) as [L|L]; [|exists p; split; [reflexivity | split; [exact C | split; [exact X | split; [reflexivity|]]]]; intros [Q|[_ Q]]; [exact Q | lra]].
  rewrite (proj2 (pb_getb RA p WLOS wl) F). cbn [bind]. destruct wl; [exists p; split; [reflexivity | split; [exact C | split; [exact X | split; [reflexivity|]]]]; intros [Q|[Q _]]; [exact Q | congruence]|].
  destruct (coeffs_runs p v) as [[[k1 k2] ael] E]; try assumption; [|exact (O L)|].
  { intros j J. apply V. cbn in J |- *. repeat (destruct J as [<-|J]; [inks|]). destruct J. }
  change (num RA) with R in *. rewrite E. cbn [bind].
  assert (C1 : forall q0, (forall j, In j (all_keys ++ [ASCAT1; DX; AES; EMS]) -> pn q0 j = pn p j) -> pz q0 KWX = pz p KWX -> pb q0 WSCAT = pb p WSCAT -> pb q0 WLOS = Some true -> core v q0).
  { intros q0 N Kq Sq Fq. split; [intros j J; rewrite N by (apply in_or_app; left; exact J); apply V; exact J|]. split; [exists k; rewrite Kq; exact K|].
    split; [eexists; exact Fq|]. rewrite Sq, (N ASCAT1) by inks. destruct SC as [SC|[SC H]]; [left; exact SC|]. right. split; [exact SC|].
    intros j J. rewrite N; [exact (H j J)|]. apply in_or_app. right. right. exact J. }
  unfold r_ltb. destruct (Rlt_dec 0 x) as [PX|PX].
  - rewrite r_log_ok by exact PX. cbn [bind]. eexists. split; [reflexivity|]. split; [|split; [exact X | split; [reflexivity | intros _; eexists; reflexivity]]].
    apply C1; try reflexivity. intros j J. cbn in J. repeat (destruct J as [<-|J]; [reflexivity|]). destruct J.
  - eexists. split; [reflexivity|]. split; [|split; [exact X | split; [reflexivity | intros [Q|[_ Q]]; [exact Q | lra]]]].
    apply C1; try reflexivity. intros j J. cbn in J. repeat (destruct J as [<-|J]; [reflexivity|]). destruct J.
Qed.
Lemma scat_setup_has p q : lr_scat_setup RA p = Ok q -> has q [DX; AES; EMS] /\ pb q WSCAT = Some true.
Proof using.
  intro H. unfold lr_scat_setup in H. do 5 (apply bind_inv in H as [? [_ H]]). apply bind_inv in H as [[ad rr] [_ H]]. do 8 (apply bind_inv in H as [? [_ H]]).
  apply bind_inv in H as [p3 [G H]]. apply ok_inj in H. subst q. split; [|reflexivity].
  assert (X : has p3 [DX; AES; EMS]).
  { destruct (_ <? _)%num in G.
    - do 6 (apply bind_inv in G as [? [_ G]]). apply ok_inj in G. subst p3. intros j J. cbn in J. destruct J as [<-|[<-|[<-|[]]]]; eexists; reflexivity.
    - apply ok_inj in G. subst p3. intros j J. cbn in J. destruct J as [<-|[<-|[<-|[]]]]; eexists; reflexivity. }
  intros j J. exact (X j J).
Qed.
Lemma scat_runs p x : core v p -> pn p DIST = Some x -> (x <= 0 \/ v DLSA <= x -> scat_ok v) ->
  exists q, lr_scat RA p = Ok q /\ core v q /\ pz q MDP = pz p MDP /\
    ((exists a, pn p AREF = Some a) \/ x <= 0 \/ v DLSA <= x -> exists a, pn q AREF = Some a).
Proof using PH RP.
  destruct PH as (W & G & D & G0 & G1 & H0 & H1 & L0 & L1 & Z). destruct RP as (GP & _ & _).
  intros C X O. assert (C' := C). destruct C' as (V & (k & K) & (wl & F) & SC).
  unfold lr_scat. rewrite (proj2 (pn_getn RA p DIST x) X), (proj2 (pn_getn RA p DLSA _) (V DLSA ltac:(inks))). cbn [bind RA n_leb n_ltb n_Z].
  destruct (r_leb x 0 || r_leb (v DLSA) x)%bool eqn:B.
  2: { rbool. exists p. split; [reflexivity | split; [exact C | split; [reflexivity|]]]. intros [Q|Q]; [exact Q | lra]. }
  assert (B' : x <= 0 \/ v DLSA <= x) by (rbool; [left | right]; assumption). clear B.
  assert (exists s q1, getb p WSCAT = Ok s /\ (if s then Ok p else lr_scat_setup RA p) = Ok q1 /\ core v q1 /\ has q1 [DX; AES; EMS] /\ pz q1 MDP = pz p MDP) as (s & q1 & E1 & E2 & C1 & HS & MQ).
  { destruct SC as [[S0 A0]|[S1 H]].
    - exists false. destruct (scat_setup_total p v) as [q1 E]; try assumption; [|exact (bending_of v GP) | exact (O B')|].
      { intros j J. apply V. cbn in J |- *. repeat (destruct J as [<-|J]; [inks|]). destruct J. }
      exists q1. split; [apply pb_getb; exact S0|]. split; [exact E|]. destruct (scat_setup_has p q1 E) as [HS SQ]. apply lr_scat_setup_frame in E.
      split; [|split; [exact HS | apply (fr_pz _ _ _ _ _ MDP E); reflexivity]].
      split; [eapply values_keep; [exact E | reflexivity | exact V]|]. split; [exists k; rewrite (fr_pz _ _ _ _ _ KWX E); [exact K | reflexivity]|].
      split; [exists wl; rewrite (fr_pb _ _ _ _ _ WLOS E); [exact F | reflexivity]|]. right. split; assumption.
    - exists true, p. split; [apply pb_getb; exact S1|]. split; [reflexivity|]. split; [exact C|]. split; [exact H | reflexivity]. }
  rewrite E1. cbn [bind]. rewrite E2. cbn [bind].
  destruct (HS DX ltac:(inks)) as [dx Ex]. rewrite (proj2 (pn_getn RA q1 DX dx) Ex). cbn [bind].
  assert (AR : forall a, core v (setn q1 AREF a)).
  { intro a. destruct C1 as (V1 & K1 & F1 & S1). split; [intros j J; rewrite <- (V1 j J); cbn in J; repeat (destruct J as [<-|J]; [reflexivity|]); destruct J|].
    split; [exact K1|]. split; [exact F1|]. destruct S1 as [S1|[S1 H]]; [left; exact S1|]. right. split; [exact S1|]. intros j J. destruct (H j J) as [y Y]. exists y. rewrite <- Y.
    cbn in J. destruct J as [<-|[<-|[<-|[]]]]; reflexivity. }
  assert (C1' := C1). destruct C1' as (V1 & _). destruct (r_ltb dx x).
  - destruct (HS AES ltac:(inks)) as [y1 Y1]. destruct (HS EMS ltac:(inks)) as [y2 Y2].
    rewrite (proj2 (pn_getn RA q1 AES y1) Y1), (proj2 (pn_getn RA q1 EMS y2) Y2). cbn [bind]. eexists. split; [reflexivity|]. split; [apply AR|]. split; [exact MQ|]. intros _. eexists. reflexivity.
  - rewrite (proj2 (pn_getn RA q1 AED _) (V1 AED ltac:(inks))), (proj2 (pn_getn RA q1 EMD _) (V1 EMD ltac:(inks))). cbn [bind].
    eexists. split; [reflexivity|]. split; [apply AR|]. split; [exact MQ|]. intros _. eexists. reflexivity.
Qed.
Lemma rest_runs d p m x : core v p -> pz p MDP = Some m -> (if (0 <=? m)%Z then x = d else pn p DIST = Some x) ->
  (x < v DLSA -> los_ok v) -> (x <= 0 \/ v DLSA <= x -> scat_ok v) -> pb p WLOS = Some false \/ (exists a, pn p AREF = Some a) ->
  exists q, rest d p = Ok q /\ core v q /\ pz q MDP = Some (if (0 <=? m)%Z then 0 else m)%Z /\ exists a, pn q AREF = Some a.
Proof using PH RP.
  intros C M X OL OS FA. unfold rest. destruct (dist_runs d p m x C M X) as (q1 & E1 & C1 & X1 & M1 & A1 & F1). rewrite E1. cbn [bind].
  destruct (los_runs q1 x C1 X1 OL) as (q2 & E2 & C2 & X2 & M2 & A2). rewrite E2. cbn [bind].
  destruct (scat_runs q2 x C2 X2 OS) as (q3 & E3 & C3 & M3 & A3). rewrite E3. cbn [bind].
  assert (exists a, pn q3 AREF = Some a) as [a A].
  { apply A3. rewrite <- A1, <- F1 in FA. destruct (Rle_dec x 0); [auto|]. destruct (Rle_dec (v DLSA) x); [auto|]. left. apply A2. destruct FA as [FA|FA]; [right; split; [exact FA | lra] | left; exact FA]. }
  rewrite (proj2 (pn_getn RA q3 AREF a) A). cbn [bind]. eexists. split; [reflexivity|]. split; [|split; [cbn; congruence | eexists; reflexivity]].
  destruct C3 as (V1 & K1 & F3 & S1). split; [intros j J; rewrite <- (V1 j J); cbn in J; repeat (destruct J as [<-|J]; [reflexivity|]); destruct J|].
  split; [exact K1|]. split; [exact F3|]. destruct S1 as [S1|[S1 H]]; [left; exact S1|]. right. split; [exact S1|]. intros j J. destruct (H j J) as [y Y]. exists y. rewrite <- Y.
  cbn in J. destruct J as [<-|[<-|[<-|[]]]]; reflexivity.
Qed.
End Rest.

Lemma reference_unique v w b : (forall k, In k setup_inputs -> v k = w k) -> 0 < v WN -> 0 < v GME -> reference_params v b -> reference_params w b ->
  forall k, In k setup_keys -> v k = w k.
Proof.
  intros E W G (GV & DV & LV) (GW & DW & LW).
  destruct GV as (a1 & a2 & a3 & a4 & a5 & a6). destruct GW as (b1 & b2 & b3 & b4 & b5 & b6).
  assert (E1 : v DLS0 = w DLS0) by (rewrite a1, b1, !(E HE0), !(E GME) by inks; reflexivity).
  assert (E2 : v DLS1 = w DLS1) by (rewrite a2, b2, !(E HE1), !(E GME) by inks; reflexivity).
  assert (E3 : v DLSA = w DLSA) by congruence.
  assert (E4 : v DLA = w DLA) by (rewrite a4, b4, !(E DL0), !(E DL1) by inks; reflexivity).
  assert (E5 : v THA = w THA) by (rewrite a5, b5, E4, !(E THE0), !(E THE1), !(E GME) by inks; reflexivity).
  assert (E6 : v DMIN = w DMIN) by (rewrite a6, b6, !(E HE0), !(E HE1) by inks; reflexivity).
  destruct DV as (c1 & c2 & c3 & c4 & c5 & c6). destruct DW as (d1 & d2 & d3 & d4 & d5 & d6).
  assert (F1 : v WD1 = w WD1) by (rewrite c1, d1, !(E HE0), !(E HE1), !(E HG0), !(E HG1) by inks; reflexivity).
  assert (F2 : v XD1 = w XD1) by (rewrite c2, d2, E4, E5, !(E GME) by inks; reflexivity).
  assert (F3 : v AFO = w AFO) by (rewrite c3, d3; unfold roughness, irregularity_at; rewrite E3, !(E HG0), !(E HG1), !(E WN), !(E DH) by inks; reflexivity).
  assert (F4 : v QK = w QK) by (rewrite c4, d4, !(E ZGR), !(E ZGI) by inks; reflexivity).
  assert (SK : forall dl he, sphere_k v dl he = sphere_k w dl he) by (intros; unfold sphere_k, sphere; rewrite F4, !(E WN) by inks; reflexivity).
  assert (SX : forall dl he, sphere_x v dl he = sphere_x w dl he) by (intros; unfold sphere_x; rewrite SK; unfold sphere; rewrite !(E WN) by inks; reflexivity).
  assert (F5 : v XHT = w XHT) by (rewrite c5, d5, !SX, !(E DL0), !(E DL1), !(E HE0), !(E HE1) by inks; reflexivity).
  assert (F6 : v AHT = w AHT) by (rewrite c6, d6, !SX, !SK, !(E DL0), !(E DL1), !(E HE0), !(E HE1) by inks; reflexivity).
  destruct LV as (e1 & e2 & e3 & e4). destruct LW as (f1 & f2 & f3 & f4).
  assert (G1 : v XAE = w XAE) by (rewrite e1, f1, !(E WN), !(E GME) by inks; reflexivity).
  assert (G2 : v WIS = w WIS) by (rewrite e4, f4, E3, !(E WN), !(E DH) by inks; reflexivity).
  assert (X3 : diff_d3 v = diff_d3 w) by (unfold diff_d3; rewrite E3, E4, G1; reflexivity).
  assert (X4 : diff_d4 v = diff_d4 w) by (unfold diff_d4; rewrite X3, G1; reflexivity).
  assert (DF : forall d, diffraction v d = diffraction w d).
  { intro d. apply diffraction_ext. intros k I. cbn in I. repeat (destruct I as [<-|I]; [first [assumption | apply E; inks]|]). destruct I. }
  rewrite X3, DF in e2. rewrite X4, DF in e3.
  assert (PX : 0 < w XAE) by (rewrite <- G1, e1; apply exp_pos). assert (DD : diff_d4 w = diff_d3 w + 2.7574 * w XAE) by reflexivity.
  assert (G3 : v EMD = w EMD).
  { apply (Rmult_eq_reg_r (2.7574 * w XAE)); [|lra]. rewrite DD in e3, f3. lra. }
  assert (G4 : v AED = w AED) by (rewrite G3 in e2; lra).
  intros k I. cbn in I. repeat (destruct I as [<-|I]; [first [assumption | apply E; inks]|]). destruct I.
Qed.
Lemma setup_core (p : prop RA) v m k : values p (ENS :: setup_inputs) v -> pz p MDP = Some m -> pz p KWX = Some k -> physical v -> ground_ok v -> reference_params v (m <? 0)%Z ->
  exists q, lr_setup RA ((1 / 3)%R : num RA) p = Ok q /\ core v q /\ pz q MDP = Some m /\ pb q WLOS = Some false /\ pn q DIST = pn p DIST.
Proof.
  intros V M K P Gk RP. destruct (setup_total p v m k V M K P Gk) as [q E]. exists q. split; [exact E|].
  destruct (setup_value p q m M E) as (GP & DP & LP & VQ & _). assert (F := E). apply lr_setup_frame in F.
  assert (A : forall j, In j (ENS :: setup_inputs) -> pn q j = Some (v j)).
  { intros j J. rewrite <- (V j J). apply (fr_pn _ _ _ _ _ j F). cbn in J. repeat (destruct J as [<-|J]; [reflexivity|]). destruct J. }
  assert (U : forall j, In j setup_keys -> v j = vals q j).
  { apply (reference_unique v (vals q) (m <? 0)%Z).
    - intros j J. symmetry. apply vals_some. apply A. right. exact J.
    - apply P.
    - apply P.
    - exact RP.
    - repeat split; first [apply GP | apply DP | apply LP]. }
  assert (FL : pb q WLOS = Some false /\ pb q WSCAT = Some false /\ pn q ASCAT1 = Some 0 /\ exists k', pz q KWX = Some k').
  { unfold lr_setup in E. apply bind_inv in E as [q1 [E1 E]]. apply bind_inv in E as [q2 [E2 E]].
    assert (X : pb q1 WLOS = Some false /\ pb q1 WSCAT = Some false).
    { unfold lr_geom in E1. do 7 (apply bind_inv in E1 as [? [_ E1]]). do 4 (apply bind_inv in E1 as [? [_ E1]]). apply ok_inj in E1. subst q1. split; reflexivity. }
    assert (Y : exists k', pz q2 KWX = Some k').
    { unfold lr_checks in E2. do 14 (apply bind_inv in E2 as [? [_ E2]]). apply ok_inj in E2. subst q2. eexists. reflexivity. }
    assert (F2 := E2). apply lr_checks_frame in F2. assert (F3 := E). apply lr_diff_frame in F3.
    rewrite !(fr_pb _ _ _ _ _ _ F3), !(fr_pb _ _ _ _ _ _ F2) by reflexivity. destruct X as [X1 X2]. split; [exact X1|]. split; [exact X2|]. split.
    - unfold lr_diff in E. do 3 (apply bind_inv in E as [? [_ E]]). apply bind_inv in E as [[? ?] [_ E]]. do 6 (apply bind_inv in E as [? [_ E]]).
      apply bind_inv in E as [[? ?] [_ E]]. apply bind_inv in E as [[? ?] [_ E]]. do 4 (apply bind_inv in E as [? [_ E]]). apply ok_inj in E. subst q. reflexivity.
    - destruct Y as [k' Y]. exists k'. rewrite (fr_pz _ _ _ _ _ KWX F3); [exact Y | reflexivity]. }
  destruct FL as (F1 & F2 & F3 & F4). split; [|split; [|split; [exact F1 | apply (fr_pn _ _ _ _ _ DIST F); reflexivity]]].
  - split; [|split; [exact F4 | split; [eexists; exact F1 | left; split; assumption]]].
    intros j J. destruct J as [<-|J]; [apply A; left; reflexivity|]. rewrite U by exact J. apply VQ. exact J.
  - rewrite (fr_pz _ _ _ _ _ MDP F); [exact M | reflexivity].
Qed.
Lemma lrprop_setup_rest d p q m : pz p MDP = Some m -> m <> 0%Z -> lr_setup RA ((1 / 3)%R : num RA) p = Ok q -> lrprop RA d p = rest d q.
Proof.
  intros M N E. unfold lrprop, rest. cbn [RA n_div n_Z]. rewrite r_div_ok by lra. cbn [bind]. rewrite (proj2 (pz_getz RA p MDP m) M). cbn [bind].
  rewrite (proj2 (Z.eqb_neq m 0) N). cbn [negb]. change (num RA) with R in *. rewrite E. reflexivity.
Qed.
Lemma lrprop_rest d p : pz p MDP = Some 0%Z -> lrprop RA d p = rest d p.
Proof.
  intros M. unfold lrprop, rest. cbn [RA n_div n_Z]. rewrite r_div_ok by lra. cbn [bind]. rewrite (proj2 (pz_getz RA p MDP 0%Z) M). cbn [bind]. reflexivity.
Qed.

Lemma lrprop_total_path (d x : R) (p : prop RA) v m k : values p (ENS :: setup_inputs) v -> pz p MDP = Some m -> (m < 0)%Z -> pz p KWX = Some k -> pn p DIST = Some x ->
  physical v -> ground_ok v -> reference_params v true -> (x < v DLSA -> los_ok v) -> (x <= 0 \/ v DLSA <= x -> scat_ok v) ->
  exists q, lrprop RA d p = Ok q.
Proof.
  intros V M N K X P Gk RP OL OS. assert (B : (m <? 0)%Z = true) by (apply Z.ltb_lt; exact N).
  destruct (setup_core p v m k V M K P Gk) as (q & E & C & MQ & F & DQ); [rewrite B; exact RP|].
  rewrite (lrprop_setup_rest d p q m M ltac:(lia) E).
  destruct (rest_runs v true P RP d q m x C MQ) as (r & Er & _); [| exact OL | exact OS | left; exact F | exists r; exact Er].
  replace (0 <=? m)%Z with false by (symmetry; apply Z.leb_gt; exact N). rewrite DQ. exact X.
Qed.
Lemma lrprop_total_area (d : R) ds (p : prop RA) v m k : values p (ENS :: setup_inputs) v -> pz p MDP = Some m -> (0 < m)%Z -> pz p KWX = Some k ->
  physical v -> ground_ok v -> reference_params v false ->
  (forall x, In x (d :: ds) -> x < v DLSA -> los_ok v) -> (forall x, In x (d :: ds) -> x <= 0 \/ v DLSA <= x -> scat_ok v) ->
  exists q, lr_calls RA (d :: ds) p = Ok q.
Proof.
  intros V M N K P Gk RP OL OS. assert (B : (m <? 0)%Z = false) by (apply Z.ltb_ge; lia).
  destruct (setup_core p v m k V M K P Gk) as (q & E & C & MQ & F & DQ); [rewrite B; exact RP|].
  destruct (rest_runs v false P RP d q m d C MQ) as (r & Er & Cr & Mr & Ar).
  { replace (0 <=? m)%Z with true by (symmetry; apply Z.leb_le; lia). reflexivity. }
  { apply (OL d). left. reflexivity. } { apply (OS d). left. reflexivity. } { left. exact F. }
  replace (0 <=? m)%Z with true in Mr by (symmetry; apply Z.leb_le; lia).
  cbn [lr_calls]. rewrite (lrprop_setup_rest d p q m M ltac:(lia) E). change (num RA) with R in *. rewrite Er. cbn [bind].
  assert (OL' : forall x, In x ds -> x < v DLSA -> los_ok v) by (intros x I; apply OL; right; exact I).
  assert (OS' : forall x, In x ds -> x <= 0 \/ v DLSA <= x -> scat_ok v) by (intros x I; apply OS; right; exact I).
  clear - P RP Cr Mr Ar OL' OS'. revert r Cr Mr Ar. induction ds as [|x l IH]; intros r Cr Mr Ar; [exists r; reflexivity|].
  destruct (rest_runs v false P RP x r 0%Z x Cr Mr eq_refl) as (r' & Er & Cr' & Mr' & Ar').
  { apply (OL' x). left. reflexivity. } { apply (OS' x). left. reflexivity. } { right. exact Ar. }
  cbn [lr_calls]. rewrite (lrprop_rest x r Mr). change (num RA) with R in *. rewrite Er. cbn [bind].
  apply IH; try assumption; [intros y I; apply OL'; right; exact I | intros y I; apply OS'; right; exact I].
Qed.
