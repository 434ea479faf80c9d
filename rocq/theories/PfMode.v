(** p2p.py: the reported mode against the formula used; the environment of the scripts. *)
From Verif Require Import RTac Frame SpecRegime SpecAtten SpecTerminal Scripts PfFrame PfLrGen PfArea PfRegime PfPrepGen PfAtten PfTerminal.
Open Scope R_scope.

Lemma lr_los_cases (p q : prop RA) (dist dlsa : R) : pn p DIST = Some dist -> pn p DLSA = Some dlsa -> pb p WLOS = Some false -> lr_los RA p = Ok q ->
  (dlsa <= dist -> q = p) /\
  (0 < dist < dlsa -> exists ael ak1 ak2 : R, pn q AEL = Some ael /\ pn q AK1 = Some ak1 /\ pn q AK2 = Some ak2 /\
     pn q AREF = Some (ael + ak1 * dist + ak2 * ln dist)).
Proof.
  intros D L W H. unfold lr_los in H. rewrite (proj2 (pn_getn RA p DIST dist) D), (proj2 (pn_getn RA p DLSA dlsa) L) in H. cbn [bind n_ltb n_Z RA] in H.
  destruct (r_ltb dist dlsa) eqn:B; rbool.
  - split; [lra|]. intros [P _]. rewrite (proj2 (pb_getb RA p WLOS false) W) in H. cbn [bind] in H. apply bind_inv in H as [[[ak1 ak2] ael] [_ H]]. cbn [fst snd] in H.
    rewrite (proj2 (r_ltb_true 0 dist) P) in H. cbn [np_log RA] in H. rewrite r_log_ok in H by exact P. cbn [bind] in H. injection H as <-.
    exists ael, ak1, ak2. cbn. auto.
  - split; [intros _; congruence | lra].
Qed.
Lemma lr_scat_cases (p q : prop RA) (dist dlsa : R) : pn p DIST = Some dist -> pn p DLSA = Some dlsa -> lr_scat RA p = Ok q ->
  (0 < dist < dlsa -> q = p) /\
  (dlsa <= dist -> exists dx aes ems aed emd : R, pn q DX = Some dx /\
     pn q AREF = Some (if Rlt_dec dx dist then aes + ems * dist else aed + emd * dist) /\
     (dx < dist -> pn q AES = Some aes /\ pn q EMS = Some ems) /\ (dist <= dx -> pn q AED = Some aed /\ pn q EMD = Some emd)).
Proof.
  intros D L H. unfold lr_scat in H. rewrite (proj2 (pn_getn RA p DIST dist) D), (proj2 (pn_getn RA p DLSA dlsa) L) in H. cbn [bind n_leb n_ltb n_Z RA] in H.
  destruct (r_leb dist 0 || r_leb dlsa dist) eqn:B.
  - split; [intros [? ?]; rbool; lra|]. intros _. clear B. apply bind_inv in H as [w [_ H]]. apply bind_inv in H as [p1 [_ H]]. apply bind_inv in H as [dx [X H]].
    destruct (r_ltb dx dist) eqn:C; rbool.
    + apply bind_inv in H as [aes [E1 H]]. apply bind_inv in H as [ems [E2 H]]. injection H as <-. apply pn_getn in X, E1, E2. exists dx, aes, ems, 0, 0. cbn.
      destruct (Rlt_dec dx dist); [|contradiction]. split; [exact X|]. split; [reflexivity|]. split; [auto | intro N; exfalso; lra].
    + apply bind_inv in H as [aed [E1 H]]. apply bind_inv in H as [emd [E2 H]]. injection H as <-. apply pn_getn in X, E1, E2. exists dx, 0, 0, aed, emd. cbn.
      destruct (Rlt_dec dx dist); [exfalso; lra|]. split; [exact X|]. split; [reflexivity|]. split; [intro N; exfalso; lra | auto].
  - split; [intros _; congruence|]. intro N. rbool. lra.
Qed.
(** The value returned in point-to-point mode. *)
Lemma p2p_value (d : R) (p q : prop RA) m : pz p MDP = Some m -> (m < 0)%Z -> lrprop RA d p = Ok q ->
  exists dist dlsa a : R, pn q DIST = Some dist /\ pn q DLSA = Some dlsa /\ pn q AREF = Some a /\
    (0 < dist < dlsa -> exists ael ak1 ak2 : R, pn q AEL = Some ael /\ pn q AK1 = Some ak1 /\ pn q AK2 = Some ak2 /\
       a = Rmax 0 (ael + ak1 * dist + ak2 * ln dist)) /\
    (dlsa <= dist -> exists dx aes ems aed emd : R, pn q DX = Some dx /\
       (dx < dist -> pn q AES = Some aes /\ pn q EMS = Some ems /\ a = Rmax 0 (aes + ems * dist)) /\
       (dist <= dx -> pn q AED = Some aed /\ pn q EMD = Some emd /\ a = Rmax 0 (aed + emd * dist))).
Proof.
  intros M N H. destruct (lrprop_stages RA _ _ _ H) as (th & m' & p1 & p2 & p3 & p4 & a & _ & M' & [[Z _]|[_ S]] & Di & Lo & Sc & Ar & ->); [assert (m' = m) by congruence; lia|].
  assert (m' = m) as -> by congruence. destruct (lr_setup_flags RA th p p1 S) as [_ W]. apply pb_getb in W.
  destruct (lr_setup_dlsa th p p1 S) as (dlsa & L1 & _).
  pose proof (lr_dist_frame RA d p1 p2 Di) as F2. pose proof (lr_los_frame RA p2 p3 Lo) as F3. pose proof (lr_scat_frame RA p3 p4 Sc) as F4.
  assert (L2 : pn p2 DLSA = Some dlsa) by (rewrite (fr_pn _ _ _ _ _ _ F2) by reflexivity; exact L1).
  assert (W2 : pb p2 WLOS = Some false) by (rewrite (fr_pb _ _ _ _ _ _ F2) by reflexivity; exact W).
  assert (D2 : exists dist : R, pn p2 DIST = Some dist).
  { unfold lr_los in Lo. apply bind_inv in Lo as [x [X _]]. apply pn_getn in X. eauto. } destruct D2 as (dist & D2).
  assert (L3 : pn p3 DLSA = Some dlsa) by (rewrite (fr_pn _ _ _ _ _ _ F3) by reflexivity; exact L2).
  assert (D3 : pn p3 DIST = Some dist) by (rewrite (fr_pn _ _ _ _ _ _ F3) by reflexivity; exact D2).
  assert (L4 : pn p4 DLSA = Some dlsa) by (rewrite (fr_pn _ _ _ _ _ _ F4) by reflexivity; exact L3).
  assert (D4 : pn p4 DIST = Some dist) by (rewrite (fr_pn _ _ _ _ _ _ F4) by reflexivity; exact D3).
  destruct (lr_los_cases p2 p3 dist dlsa D2 L2 W2 Lo) as [Lo1 Lo2]. destruct (lr_scat_cases p3 p4 dist dlsa D3 L3 Sc) as [Sc1 Sc2].
  apply pn_getn in Ar. rewrite pymax_R. cbn [n_Z RA]. exists dist, dlsa, (Rmax a 0). split; [exact D4|]. split; [exact L4|]. split; [reflexivity|]. split.
  - intro I. destruct (Lo2 I) as (ael & ak1 & ak2 & E1 & E2 & E3 & E4). assert (p4 = p3) as -> by (apply Sc1; exact I). exists ael, ak1, ak2. cbn. 
    split; [exact E1|]. split; [exact E2|]. split; [exact E3|]. rewrite Rmax_comm. f_equal. congruence.
  - intro I. destruct (Sc2 I) as (dx & aes & ems & aed & emd & X & V & C1 & C2). exists dx, aes, ems, aed, emd. cbn. split; [exact X|]. rewrite V in Ar. injection Ar as <-. split; intro J.
    + destruct (C1 J) as [e1 e2]. split; [exact e1|]. split; [exact e2|]. destruct (Rlt_dec dx dist); [|contradiction]. apply Rmax_comm.
    + destruct (C2 J) as [e1 e2]. split; [exact e1|]. split; [exact e2|]. destruct (Rlt_dec dx dist); [exfalso; lra|]. apply Rmax_comm.
Qed.

(** * The report *)
Lemma classify_run (xi dist dlsa : R) (q : prop RA) : pn q DIST = Some dist -> pn q DLSA = Some dlsa ->
  (dlsa < dist -> exists dx : R, pn q DX = Some dx) ->
  exists k m, p2p_classify RA xi q = Ok (k, m) /\
    (dist <= dlsa -> m = MsgDiffraction) /\
    (forall dx : R, dlsa < dist -> pn q DX = Some dx -> m = if Rlt_dec dx dist then MsgScatter else MsgNone) /\
    (0 <= xi -> k = if Rlt_dec dist (dlsa - xi / 2) then LineOfSight else if Rle_dec dist (dlsa + xi / 2) then SingleHorizon else DoubleHorizon).
Proof.
  intros D L X. unfold p2p_classify. rewrite (proj2 (pn_getn RA q DIST dist) D), (proj2 (pn_getn RA q DLSA dlsa) L). cbn [bind n_leb n_ltb n_eqb n_Z n_lit n_sub n_mul n_opp RA]. cbv zeta.
  rewrite !pymax_R. set (t := (Rmax (dist - dlsa - 5 / 10 * xi) 0 - Rmax (- (dist - dlsa) - 5 / 10 * xi) 0)%R).
  set (kind := if r_ltb t 0 then LineOfSight else if r_eqb t 0 then SingleHorizon else DoubleHorizon).
  assert (KK : 0 <= xi -> kind = if Rlt_dec dist (dlsa - xi / 2) then LineOfSight else if Rle_dec dist (dlsa + xi / 2) then SingleHorizon else DoubleHorizon).
  { intro P. unfold kind, t. destruct (Rlt_dec dist (dlsa - xi / 2)) as [C|C].
    - rewrite Rmax_right by lra. rewrite Rmax_left by lra. rewrite (proj2 (r_ltb_true _ _)) by lra. reflexivity.
    - destruct (Rle_dec dist (dlsa + xi / 2)) as [C'|C'].
      + rewrite !Rmax_right by lra. rewrite (proj2 (r_ltb_false _ _)) by lra. rewrite (proj2 (r_eqb_true _ _)) by lra. reflexivity.
      + rewrite Rmax_left by lra. rewrite Rmax_right by lra. rewrite (proj2 (r_ltb_false _ _)) by lra. rewrite (proj2 (r_eqb_false _ _)) by lra. reflexivity. }
  destruct (r_leb dist dlsa) eqn:B; rbool.
  - cbn [bind]. exists kind, MsgDiffraction. split; [reflexivity|]. split; [reflexivity|]. split; [intros; lra | exact KK].
  - destruct (X B) as (dx & E). rewrite (proj2 (pn_getn RA q DX dx) E). cbn [bind].
    exists kind, (if Rlt_dec dx dist then MsgScatter else MsgNone). split; [|split; [intros; lra|split; [|exact KK]]].
    + unfold r_ltb. destruct (Rlt_dec dx dist); reflexivity.
    + intros dx' _ E'. assert (dx' = dx) as -> by congruence. reflexivity.
Qed.
Lemma report_spec (xi : R) (p q : prop RA) : qlrpfl RA p = Ok q -> exists k m dist dlsa a, p2p_classify RA xi q = Ok (k, m) /\
  values q [DIST; DLSA; AREF] (fun x => match x with DIST => dist | DLSA => dlsa | _ => a end) /\
  (0 < dist < dlsa -> m = MsgDiffraction /\ exists c, los_entries q c /\ a = Rmax 0 (los_curve c dist)) /\
  (dlsa < dist -> exists c, pn q DX = Some (b_dx c) /\
     (b_dx c < dist -> m = MsgScatter /\ pn q AES = Some (b_aes c) /\ pn q EMS = Some (b_ems c) /\ a = Rmax 0 (scat_line c dist)) /\
     (dist <= b_dx c -> m = MsgNone /\ pn q AED = Some (b_aed c) /\ pn q EMD = Some (b_emd c) /\ a = Rmax 0 (diff_line c dist))).
Proof.
  intro H. apply qlrpfl_parts in H as (p1 & p2 & _ & E2 & E3). apply prep_control_spec in E2 as (_ & _ & _ & _ & _ & _ & M & _).
  destruct (p2p_value _ _ _ _ M ltac:(lia) E3) as (dist & dlsa & a & D & L & Ar & V1 & V2).
  destruct (classify_run xi dist dlsa q D L) as (k & m & E & C1 & C2 & _). { intro I. destruct (V2 ltac:(lra)) as (dx & _ & _ & _ & _ & X & _). eauto. }
  exists k, m, dist, dlsa, a. split; [exact E|]. split. { intros x I. cbn in I. intuition subst; assumption. }
  split.
  - intro I. split; [apply C1; lra|]. destruct (V1 I) as (ael & ak1 & ak2 & e1 & e2 & e3 & e4). exists (Branches ael ak1 ak2 0 0 0 0 0 0). split; [repeat split; assumption | exact e4].
  - intro I. destruct (V2 ltac:(lra)) as (dx & aes & ems & aed & emd & X & W1 & W2). exists (Branches 0 0 0 0 aed emd dx aes ems). cbn [b_dx b_aes b_ems b_aed b_emd]. split; [exact X|]. pose proof (C2 dx I X) as C. split; intro J.
    + destruct (Rlt_dec dx dist); [|contradiction]. destruct (W1 J) as (e1 & e2 & e3). auto.
    + destruct (Rlt_dec dx dist); [exfalso; lra|]. destruct (W2 J) as (e1 & e2 & e3). auto.
Qed.

Lemma kind_spec (xi : R) (p q : prop RA) : 0 <= xi -> qlrpfl RA p = Ok q ->
  exists k m dist dlsa, p2p_classify RA xi q = Ok (k, m) /\ pn q DIST = Some dist /\ pn q DLSA = Some dlsa /\
    k = if Rlt_dec dist (dlsa - xi / 2) then LineOfSight else if Rle_dec dist (dlsa + xi / 2) then SingleHorizon else DoubleHorizon.
Proof.
  intros X H. apply qlrpfl_parts in H as (p1 & p2 & _ & E2 & E3). apply prep_control_spec in E2 as (_ & _ & _ & _ & _ & _ & M & _).
  destruct (p2p_value _ _ _ _ M ltac:(lia) E3) as (dist & dlsa & a & D & L & Ar & V1 & V2).
  destruct (classify_run xi dist dlsa q D L) as (k & m & E & _ & _ & K). { intro I. destruct (V2 ltac:(lra)) as (dx & _ & _ & _ & _ & Y & _). eauto. }
  exists k, m, dist, dlsa. auto.
Qed.

(** * The environment *)
Lemma script_gme_run (ens0 gma : R) (p : prop RA) : exists q, script_gme RA ens0 gma p = Ok q /\
  pn q GME = Some (gma * (1 - 4665 / 100000 * exp (ens0 / (1793 / 10)))) /\ pn q ENS = Some ens0 /\ same_except [GMA; ENS; GME] [] [] p q.
Proof.
  unfold script_gme. cbn [n_div n_lit m_exp n_mul n_sub n_Z RA]. rewrite r_div_ok by lra. cbn [bind]. eexists; split; [reflexivity|]. split; [reflexivity|]. split; [reflexivity|].
  frames.
Qed.
Lemma p2p_environment (z : list R) (p q : prop RA) (fmhz : R) ipol : pn p FMHZ = Some fmhz -> pz p IPOL = Some ipol ->
  p2p_prepare RA z p = Ok q ->
  exists wn gme ens zgnd, qlrps RA fmhz 0 314 ipol 15 (5 / 1000)%R = Ok (wn, gme, ens, zgnd) /\
    pn q WN = Some wn /\ pn q GME = Some gme /\ pn q ENS = Some ens /\ pn q ZGR = Some (fst zgnd) /\ pn q ZGI = Some (snd zgnd).
Proof.
  intros F I H. unfold p2p_prepare in H. apply bind_inv in H as [d [_ H]]. apply bind_inv in H as [f [_ H]].
  dsimp_in H. rewrite (proj2 (pn_getn RA p FMHZ fmhz) F) in H. cbn [bind] in H. apply bind_inv in H as [wn [W H]].
  destruct (script_gme_run 314 (157 / 1000000000) (setn (setz (setpfl (setz (setn (setz (setn (setn p EPS 15) SGM (5 / 1000)) KLIM 5) ENS0 314) LVAR 5) f) KWX 0) WN wn)) as (q1 & G & G1 & G2 & G3).
  cbn [n_Z n_lit RA] in H. rewrite G in H. cbn [bind] in H. apply bind_inv in H as [ip [E1 H]]. rewrite (fr_getz _ _ _ _ _ _ G3) in E1 by reflexivity. dsimp_in E1. rewrite (proj2 (pz_getz RA p IPOL ipol) I) in E1. injection E1 as <-.
  apply bind_inv in H as [[zr zi] [E2 H]]. cbn [fst snd] in H.
  assert (Q : qlrps RA fmhz 0 314 ipol 15 (5 / 1000)%R = Ok (wn, (157 / 1000000000 * (1 - 4665 / 100000 * exp (314 / (1793 / 10))))%R, 314, (zr, zi))).
  { unfold qlrps. cbn [n_Z n_lit RA] in W |- *. rewrite W. cbn [bind]. cbn [n_eqb RA]. rewrite (proj2 (r_eqb_true 0 0) eq_refl). cbn [negb bind n_div m_exp n_mul n_sub RA]. rewrite r_div_ok by lra. cbn [bind].
    unfold p2p_zgnd in E2. cbn [n_div n_mul n_lit n_sub n_Z RA] in E2. apply bind_inv in E2 as [t [T E2]]. rewrite T. cbn [bind]. apply bind_inv in E2 as [zg [T2 E2]]. rewrite T2. cbn [bind].
    rewrite E2. reflexivity. }
  exists wn, (157 / 1000000000 * (1 - 4665 / 100000 * exp (314 / (1793 / 10))))%R, 314, (zr, zi). split; [exact Q|].
  apply qlrpfl_control in H as (_ & _ & _ & _ & _ & _ & _ & _ & _ & _ & Fr).
  destruct Fr as [Fr _]. rewrite !Fr by (apply memn_nIn; reflexivity). cbn [pn setn setz nkey_eqb nkey_id Pos.eqb].
  rewrite G1, G2. rewrite (fr_pn _ _ _ _ _ WN G3) by reflexivity. cbn. auto.
Qed.
Lemma area_environment (p q : prop RA) (fmhz : R) ipol : 0 < fmhz -> pn p FMHZ = Some fmhz -> pz p IPOL = Some ipol -> area_env RA p = Ok q ->
  exists wn gme ens zgnd zr zi, qlrps RA fmhz 0 301 ipol 15 (1 / 1000)%R = Ok (wn, gme, ens, zgnd) /\
    pn q WN = Some wn /\ pn q GME = Some gme /\ pn q ENS = Some ens /\ pn q ZGR = Some zr /\ pn q ZGI = Some zi /\ (zr, zi) <> zgnd.
Proof.
  intros P F I H. unfold area_env in H. dsimp_in H. rewrite (proj2 (pn_getn RA p FMHZ fmhz) F) in H. cbn [bind n_div n_lit n_Z RA] in H. rewrite r_div_ok in H by lra. cbn [bind] in H.
  set (wn := fmhz / (477 / 10)) in *. assert (W : 0 < wn) by (apply Rdiv_lt_0_compat; lra).
  apply bind_inv in H as [q1 [G H]]. destruct (script_gme_run 301 (157 / 1000000000) (setn (setz (setz (setz (setn (setn (setn p ENS0 301) EPS 15) SGM (1 / 1000)) KLIMX 5) MDVARX 3) KWX 0) WN wn)) as (q1' & G' & G1 & G2 & G3).
  rewrite G' in G. injection G as <-. cbn [n_mul n_sub m_sqrt RA] in H. rewrite r_div_ok in H by lra. cbn [bind] in H. rewrite r_sqrt_ok in H by lra. cbn [bind] in H. dsimp_in H.
  rewrite (fr_getz _ _ _ _ _ _ G3) in H by reflexivity. dsimp_in H. rewrite (proj2 (pz_getz RA p IPOL ipol) I) in H. cbn [bind] in H.
  set (t := 37662 / 100 * (1 / 1000) / wn) in *. assert (T : 0 < t) by (apply Rdiv_lt_0_compat; lra).
  destruct (csqrt_root (15 - 1) t) as [r [Er (Pr & P0 & P1 & _)]].
  assert (RN : r <> (sqrt (15 - 1), 0)). { intros ->. unfold cmul in Pr. cbn [fst snd] in Pr. injection Pr as _ Pr. lra. }
  assert (NZ : cnorm2 (15, t) <> 0). { unfold cnorm2. cbn [fst snd]. nra. }
  apply bind_inv in H as [zg [E H]]. injection H as <-.
  assert (Q : exists zgnd, qlrps RA fmhz 0 301 ipol 15 (1 / 1000)%R = Ok (wn, (157 / 1000000000 * (1 - 4665 / 100000 * exp (301 / (1793 / 10))))%R, 301, zgnd) /\ zg <> zgnd).
  { unfold qlrps. cbn [n_Z n_lit n_div RA]. rewrite (r_div_ok fmhz) by lra. fold wn. cbn [bind n_eqb RA]. rewrite (proj2 (r_eqb_true 0 0) eq_refl). cbn [negb bind m_exp n_mul n_sub RA]. rewrite r_div_ok by lra. cbn [bind].
    rewrite r_div_ok by lra. fold t. cbn [bind]. rewrite Er. cbn [bind].
    destruct (ipol =? 0)%Z; cbn [negb] in E |- *.
    - cbn [bind]. eexists; split; [reflexivity|]. injection E as <-. unfold c_real. cbn [n_Z RA]. intro K. apply RN. symmetry. exact K.
    - pose proof (c_div_ok r (15, t) NZ) as DV. exists (cquot r (15, t)). split; [exact (f_equal (fun m => bind m (fun z => Ok (wn, (157 / 1000000000 * (1 - 4665 / 100000 * exp (301 / (1793 / 10))))%R, 301, z))) DV)|]. apply c_div_inv in E as [_ ->]. unfold c_real. cbn [n_Z RA]. intro K.
      apply RN. rewrite <- (quot_mul r (15, t) NZ), <- K. apply quot_mul. exact NZ. }
  destruct Q as (zgnd & Q & N). do 3 eexists. exists zgnd, (fst zg), (snd zg). split; [exact Q|]. cbn. rewrite G1, G2. rewrite (fr_pn _ _ _ _ _ WN G3) by reflexivity. cbn.
  repeat (split; [reflexivity|]). destruct zg; exact N.
Qed.
