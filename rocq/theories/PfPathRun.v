(** The set-up of lrprop, exactly; existence of the reference values. *)
From Coq Require Classical_Prop.
From Verif Require Import Frame SpecLr PfFrame PfLrGen PfRegime PfCurves PfAtten PfAvarReal PfStats PfSetup PfScat PfLos PfLosRef PfRef PfRealRun SpecTotal PfTotal PfTotal2 PfTotal3 PfTotal4 PfTotal5 SpecPathRun Arith.
Open Scope R_scope.

Lemma diffraction_unique v w b : (forall k, In k diff_in -> v k = w k) -> diffraction_params v b -> diffraction_params w b -> forall k, In k at_keys -> v k = w k.
Proof.
  intros E (c1 & c2 & c3 & c4 & c5 & c6) (d1 & d2 & d3 & d4 & d5 & d6).
  assert (F1 : v WD1 = w WD1) by (rewrite c1, d1, !(E HE0), !(E HE1), !(E HG0), !(E HG1) by inks; reflexivity).
  assert (F2 : v XD1 = w XD1) by (rewrite c2, d2, !(E DLA), !(E THA), !(E GME) by inks; reflexivity).
  assert (F3 : v AFO = w AFO) by (rewrite c3, d3; unfold roughness, irregularity_at; rewrite !(E DLSA), !(E HG0), !(E HG1), !(E WN), !(E DH) by inks; reflexivity).
  assert (F4 : v QK = w QK) by (rewrite c4, d4, !(E ZGR), !(E ZGI) by inks; reflexivity).
  assert (SK : forall dl he, sphere_k v dl he = sphere_k w dl he) by (intros; unfold sphere_k, sphere; rewrite F4, !(E WN) by inks; reflexivity).
  assert (SX : forall dl he, sphere_x v dl he = sphere_x w dl he) by (intros; unfold sphere_x; rewrite SK; unfold sphere; rewrite !(E WN) by inks; reflexivity).
  assert (F5 : v XHT = w XHT) by (rewrite c5, d5, !SX, !(E DL0), !(E DL1), !(E HE0), !(E HE1) by inks; reflexivity).
  assert (F6 : v AHT = w AHT) by (rewrite c6, d6, !SX, !SK, !(E DL0), !(E DL1), !(E HE0), !(E HE1) by inks; reflexivity).
  intros k I. cbn in I. repeat (destruct I as [<-|I]; [first [assumption | apply E; inks]|]). destruct I.
Qed.

Section SetupExact.
Context (v : nkey -> R) (b : bool).
Hypothesis PH : physical v.
Hypothesis RP : reference_params v b.
Lemma xae_pos : 0 < v XAE.
Proof using RP. destruct RP as (_ & _ & -> & _). apply exp_pos. Qed.
Lemma adiff_exact (p : prop RA) d : values p at_keys v -> v DLA + 1.3787 * v XAE <= d ->
  (0 < rounded_x v d -> exists a, adiff RA d p = Ok (a, p)) /\ (rounded_x v d <= 0 -> adiff RA d p = Err NotReal).
Proof using PH RP.
  intros V L. assert (X := xae_pos). destruct PH as (W & G & D & _ & _ & _ & _ & L0 & L1 & _). destruct RP as (GP & DP & _). assert (B := bending_of v GP).
  assert (LA : 0 < v DLA) by (destruct B as [-> _]; lra). assert (EP := excess_pos v).
  apply adiff_domain; try assumption; try lra.
  - rewrite angle_excess by exact B. assert (0 < (d - v DLA) * v GME) by (apply Rmult_lt_0_compat; lra). lra.
  - destruct DP as (-> & _). apply sqrt_pos.
  - eapply xd1_nonneg; eassumption.
Qed.
Lemma diff_exact (p : prop RA) m : values p diff_in v -> pz p MDP = Some m -> b = (m <? 0)%Z ->
  (curve_ok v -> exists q, lr_diff RA ((1 / 3)%R : num RA) p = Ok q) /\ (~ curve_ok v -> lr_diff RA ((1 / 3)%R : num RA) p = Err NotReal).
Proof using PH RP.
  intros V M Eb. set (T := fun m : res (prop RA) => (curve_ok v -> exists q, m = Ok q) /\ (~ curve_ok v -> m = Err NotReal)). change (T (lr_diff RA ((1 / 3)%R : num RA) p)). unfold lr_diff.
  sr V. sr V. runfold. sd lra. assert (P' := PH). destruct P' as (W & G & D & G0 & G1 & H0 & H1 & L0 & L1 & Z).
  assert (RP' := RP). destruct RP' as (GP & DV & LV). assert (S := dlsa_pos v GP G H0 H1).
  set (p0 := setn p DMIN _).
  assert (V0 : values p0 diff_in v) by (intros k I; cbn in I; repeat (destruct I as [<-|I]; [apply (V _); inks|]); destruct I).
  assert (runs (adiff_init RA ((1 / 3)%R : num RA) p0) (fun _ => True)) as (p1 & E1 & _).
  { apply (runs_init p0 v m); try assumption; [|lra|auto].
    intros k I. apply V0. cbn in I |- *. repeat (destruct I as [<-|I]; [inks|]). destruct I. }
  assert (EA : adiff RA 0 p0 = Ok (0, p1)).
  { unfold adiff. cbn [RA n_div n_Z n_eqb]. rewrite r_div_ok by lra. cbn [bind]. rewrite (proj2 (r_eqb_true 0 0)) by reflexivity.
    change (num RA) with R in *. rewrite E1. reflexivity. }
  se EA. cbv beta iota. clear EA.
  assert (F1 := adiff_init_frame RA _ _ _ E1). cbn beta in F1. destruct (init_value p0 p1 m M E1) as [DP V1].
  assert (K : values p1 diff_in v).
  { intros k I. rewrite <- (V0 k I). apply (fr_pn _ _ _ _ _ _ F1). cbn in I. repeat (destruct I as [<-|I]; [reflexivity|]). destruct I. }
  rewrite <- Eb in DP.
  assert (U := diffraction_unique v (vals p1) b ltac:(intros k I; symmetry; apply vals_some; apply K; exact I) DV DP).
  sr K. sr K. se (r_powZ_2 (v GME)).
  assert (PX : 0 < v WN * v GME ^ 2) by (apply Rmult_lt_0_compat; [assumption | nra]).
  se (r_pow_ok (v WN * v GME ^ 2) (- (1 / 3)) PX). assert (EX : Rpower (v WN * v GME ^ 2) (- (1 / 3)) = v XAE) by (symmetry; apply LV). rewrite EX. assert (X := xae_pos).
  set (p2 := setn p1 XAE (v XAE : num RA)).
  assert (K2 : values p2 diff_in v) by (intros k I; cbn in I; repeat (destruct I as [<-|I]; [apply K; inks|]); destruct I).
  assert (V2 : values p2 at_keys v).
  { intros k I. rewrite (U k I). cbn in I. repeat (destruct I as [<-|I]; [apply V1; inks|]); destruct I. }
  sr K2. sr K2.
  match goal with |- T (bind (adiff RA ?d ?q) _) => assert (E3 : d = diff_d3 v) end.
  { unfold diff_d3. replace 1.3787 with (13787 / 10000) by lra. rewrite (Rplus_comm (v DLA)). unfold r_ltb, Rmax.
    destruct (Rlt_dec (v DLSA) (13787 / 10000 * v XAE + v DLA)), (Rle_dec (v DLSA) (13787 / 10000 * v XAE + v DLA)); lra. }
  rewrite E3. assert (A3 := Rmax_r (v DLSA) (v DLA + 1.3787 * v XAE)). change (Rmax _ _) with (diff_d3 v) in A3.
  destruct (adiff_exact p2 (diff_d3 v) V2 A3) as [O3 N3].
  destruct (Rlt_dec 0 (rounded_x v (diff_d3 v))) as [R3|R3]; [|rewrite N3 by lra; split; [intros [Q _]; lra | reflexivity]].
  destruct (O3 R3) as [a3 Y3]. se Y3. cbv beta iota.
  match goal with |- T (bind (adiff RA ?d ?q) _) => assert (E4 : d = diff_d4 v) by (unfold diff_d4; lra) end. rewrite E4.
  destruct (adiff_exact p2 (diff_d4 v) V2 ltac:(unfold diff_d4; lra)) as [O4 N4].
  destruct (Rlt_dec 0 (rounded_x v (diff_d4 v))) as [R4|R4]; [|rewrite N4 by lra; split; [intros [_ Q]; lra | reflexivity]].
  destruct (O4 R4) as [a4 Y4]. se Y4. cbv beta iota. sd ltac:(unfold diff_d4; lra).
  dsimp. sr K. sd ltac:(destruct (r_ltb (10000 / 1) (v DLSA)); lra).
  assert (0 <= v WN * v DH / (if r_ltb (10000 / 1) (v DLSA) then v DLSA else 10000 / 1)).
  { apply Rdiv_nonneg; [apply Rmult_le_pos; lra|]. destruct (r_ltb (10000 / 1) (v DLSA)); lra. }
  sd lra. split; [intros _; eexists; reflexivity | intros N; exfalso; apply N; split; assumption].
Qed.
Lemma setup_exact (p : prop RA) m k : values p (ENS :: setup_inputs) v -> pz p MDP = Some m -> b = (m <? 0)%Z -> pz p KWX = Some k ->
  (curve_ok v -> exists q, lr_setup RA ((1 / 3)%R : num RA) p = Ok q) /\ (~ curve_ok v -> lr_setup RA ((1 / 3)%R : num RA) p = Err NotReal).
Proof using PH RP.
  intros V M Eb K. assert (P' := PH). destruct P' as (W & G & D & G0 & G1 & H0 & H1 & L0 & L1 & Z). assert (RP' := RP). destruct RP' as (GP & _). destruct GP as (g1 & g2 & g3 & g4 & g5 & _).
  destruct (runs_geom p v) as [q1 E1]; [intros x I; apply V; cbn in I |- *; tauto | assumption..|].
  assert (F1 := E1). apply lr_geom_frame in F1. destruct (geom_value p q1 E1) as (X0 & X1 & SE & AE & TE & V1).
  assert (A1 : forall x, In x (ENS :: setup_inputs) -> pn q1 x = Some (v x)).
  { intros x I. rewrite <- (V x I). apply (fr_pn _ _ _ _ _ _ F1). cbn in I. repeat (destruct I as [<-|I]; [reflexivity|]). destruct I. }
  assert (KV : forall x, In x (ENS :: setup_inputs) -> v x = vals q1 x) by (intros x I; symmetry; apply vals_some; apply A1; exact I).
  destruct (runs_checks q1 (vals q1) k) as [q2 E2].
  { intros x I. cbn in I. repeat (destruct I as [<-|I]; [first [solve [apply V1; inks] | solve [rewrite <- KV by inks; apply A1; inks]]|]). destruct I. }
  { rewrite (fr_pz _ _ _ _ _ KWX F1 eq_refl). exact K. }
  assert (F2 := E2). apply lr_checks_frame in F2.
  assert (N1 : v DLS0 = vals q1 DLS0) by (rewrite X0, g1, !(KV HE0), !(KV GME) by inks; reflexivity).
  assert (N2 : v DLS1 = vals q1 DLS1) by (rewrite X1, g2, !(KV HE1), !(KV GME) by inks; reflexivity).
  assert (N3 : v DLSA = vals q1 DLSA) by (rewrite SE, g3, N1, N2; reflexivity).
  assert (N4 : v DLA = vals q1 DLA) by (rewrite AE, g4, !(KV DL0), !(KV DL1) by inks; reflexivity).
  assert (N5 : v THA = vals q1 THA) by (rewrite TE, g5, N4, !(KV THE0), !(KV THE1), !(KV GME) by inks; reflexivity).
  assert (VD : values q2 diff_in v).
  { intros x I. rewrite (fr_pn _ _ _ _ _ x F2) by reflexivity. cbn in I. repeat (destruct I as [<-|I]; [first [solve [apply A1; inks] | solve [rewrite ?N3, ?N4, ?N5; apply V1; inks]]|]). destruct I. }
  assert (M2 : pz q2 MDP = Some m) by (rewrite (fr_pz _ _ _ _ _ MDP F2 eq_refl), (fr_pz _ _ _ _ _ MDP F1 eq_refl); exact M).
  destruct (diff_exact q2 m VD M2 Eb) as [O N]. unfold lr_setup. rewrite E1. cbn [bind]. rewrite E2. cbn [bind]. split; assumption.
Qed.
Lemma setup_core_exact (p : prop RA) m k : values p (ENS :: setup_inputs) v -> pz p MDP = Some m -> b = (m <? 0)%Z -> pz p KWX = Some k -> curve_ok v ->
  exists q, lr_setup RA ((1 / 3)%R : num RA) p = Ok q /\ core v q /\ pz q MDP = Some m /\ pb q WLOS = Some false /\ pn q DIST = pn p DIST.
Proof using PH RP.
  intros V M Eb K CO. destruct (setup_exact p m k V M Eb K) as [O _]. destruct (O CO) as [q E]. exists q. split; [exact E|].
  destruct (setup_value p q m M E) as (GP & DP & LP & VQ & _). assert (F := E). apply lr_setup_frame in F.
  assert (A : forall j, In j (ENS :: setup_inputs) -> pn q j = Some (v j)).
  { intros j J. rewrite <- (V j J). apply (fr_pn _ _ _ _ _ j F). cbn in J. repeat (destruct J as [<-|J]; [reflexivity|]). destruct J. }
  assert (U : forall j, In j setup_keys -> v j = vals q j).
  { apply (reference_unique v (vals q) b).
    - intros j J. symmetry. apply vals_some. apply A. right. exact J.
    - apply PH.
    - apply PH.
    - exact RP.
    - rewrite Eb. split; [exact GP | split; assumption]. }
  assert (FL : pb q WLOS = Some false /\ pb q WSCAT = Some false /\ pn q ASCAT1 = Some 0 /\ exists k', pz q KWX = Some k').
  { unfold lr_setup in E. apply bind_inv in E as [q1 [E1 E]]. apply bind_inv in E as [q2 [E2 E]].
    assert (X : pb q1 WLOS = Some false /\ pb q1 WSCAT = Some false).
    { unfold lr_geom in E1. do 7 (apply bind_inv in E1 as [? [_ E1]]). do 4 (apply bind_inv in E1 as [? [_ E1]]). apply ok_inj in E1. subst q1. split; reflexivity. }
    assert (Y : exists k', pz q2 KWX = Some k').
    { unfold lr_checks in E2. do 14 (apply bind_inv in E2 as [? [_ E2]]). apply ok_inj in E2. subst q2. eexists. reflexivity. }
    assert (F2 := E2). apply lr_checks_frame in F2. assert (F3 := E). apply lr_diff_frame in F3.
    rewrite !(fr_pb _ _ _ _ _ _ F3), !(fr_pb _ _ _ _ _ _ F2) by reflexivity. destruct X as [X1 X2]. split; [exact X1|]. split; [exact X2|]. split.
    - unfold lr_diff in E. do 3 (apply bind_inv in E as [? [_ E]]). apply bind_inv in E as [[? ?] [_ E]]. do 6 (apply bind_inv in E as [? [_ E]]).
      apply bind_inv in E as [[? ?] [_ E]]. apply bind_inv in E as [[? ?] [_ E]]. do 4 (apply bind_inv in E as [? [_ E]]). apply ok_inj in E. subst q. reflexivity.
    - destruct Y as [k' Y]. exists k'. rewrite (fr_pz _ _ _ _ _ KWX F3); [exact Y | reflexivity]. }
  destruct FL as (F1 & F2 & F3 & F4). split; [|split; [|split; [exact F1 | apply (fr_pn _ _ _ _ _ DIST F); reflexivity]]].
  - split; [|split; [exact F4 | split; [eexists; exact F1 | left; split; assumption]]].
    intros j J. destruct J as [<-|J]; [apply A; left; reflexivity|]. rewrite U by exact J. apply VQ. exact J.
  - rewrite (fr_pz _ _ _ _ _ MDP F); [exact M | reflexivity].
Qed.
End SetupExact.

(** ** The reference values exist *)
Section Exist.
Context (w : nkey -> R) (b : bool).
Definition ref1 (k : nkey) : R :=
  let dls0 := sqrt (2 * w HE0 / w GME) in let dls1 := sqrt (2 * w HE1 / w GME) in let dla := w DL0 + w DL1 in let tha := Rmax (w THE0 + w THE1) (- dla * w GME) in
  match k with
  | DLS0 => dls0 | DLS1 => dls1 | DLSA => dls0 + dls1 | DLA => dla | THA => tha | DMIN => Rabs (w HE0 - w HE1) / 0.2
  | WD1 => sqrt (1 + (w HE0 * w HE1 - w HG0 * w HG1) / (w HG0 * w HG1 + (if b then 10 else 0))) | XD1 => dla + tha / w GME
  | QK => 1 / sqrt (w ZGR ^ 2 + w ZGI ^ 2) | XAE => Rpower (w WN * w GME ^ 2) (- (1 / 3))
  | WIS => 0.021 / (0.021 + w WN * w DH / Rmax 10000 (dls0 + dls1)) | k => w k
  end.
Definition ref2 (k : nkey) : R :=
  match k with
  | AFO => Rmin 15 (2.171 * ln (1 + 0.000477 * w HG0 * w HG1 * w WN * roughness ref1 (ref1 DLSA)))
  | XHT => sphere_x ref1 (w DL0) (w HE0) + sphere_x ref1 (w DL1) (w HE1)
  | AHT => 20 + height_gain (sphere_x ref1 (w DL0) (w HE0)) (sphere_k ref1 (w DL0) (w HE0))
             + height_gain (sphere_x ref1 (w DL1) (w HE1)) (sphere_k ref1 (w DL1) (w HE1))
  | k => ref1 k
  end.
Definition ref_emd : R := (diffraction ref2 (diff_d4 ref2) - diffraction ref2 (diff_d3 ref2)) / (diff_d4 ref2 - diff_d3 ref2).
Definition ref3 (k : nkey) : R :=
  match k with
  | EMD => ref_emd
  | AED => diffraction ref2 (diff_d3 ref2) - ref_emd * diff_d3 ref2
  | k => ref2 k
  end.
Lemma reference_exists : exists v, (forall k, In k (ENS :: setup_inputs) -> v k = w k) /\ reference_params v b.
Proof.
  exists ref3. split; [intros k I; cbn in I; repeat (destruct I as [<-|I]; [reflexivity|]); destruct I|].
  split; [|split].
  - repeat split; reflexivity.
  - repeat split; reflexivity.
  - split; [reflexivity|]. change (diff_d3 ref3) with (diff_d3 ref2). change (diff_d4 ref3) with (diff_d4 ref2). change (diffraction ref3) with (diffraction ref2).
    change (ref3 AED) with (diffraction ref2 (diff_d3 ref2) - ref_emd * diff_d3 ref2). change (ref3 EMD) with ref_emd.
    split; [ring|]. split; [|reflexivity]. assert (X : 0 < ref2 XAE) by apply exp_pos. unfold ref_emd.
    assert (Y : diff_d4 ref2 - diff_d3 ref2 <> 0) by (unfold diff_d4; lra). set (a := diffraction ref2 _) in *. set (c := diffraction ref2 _) in *. clearbody a c.
    set (d4 := diff_d4 ref2) in *. set (d3 := diff_d3 ref2) in *. clearbody d3 d4. field. exact Y.
Qed.
End Exist.
