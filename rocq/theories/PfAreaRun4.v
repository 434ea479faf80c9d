(** area.py returns a table or divides by zero; exactly when. *)
From Interval Require Import Tactic.
From Coq Require Classical_Prop.
From Verif Require Import RInst Frame RTac SpecLr SpecQuant PfFrame PfLrGen PfPrepGen PfRegime PfAtten PfAvarReal PfStats PfSetup PfRealRun SpecTotal PfTotal PfTotal2 PfTotal3 PfTotal4 PfTotal6 PfMode PfMisc PfAreaRun PfAreaRun2 PfAreaRun3 PfAreaGrid SpecAreaRun Scripts Prep Stats LrProp Dict Arith.
Open Scope R_scope.

Lemma los_ok_iff v : (forall d, 0 < d -> reflects v d) -> 0 < fit_d0 v -> 0 < fit_d1 v -> (los_ok v <-> ~ los_coincidence v).
Proof.
  intros RF P0 P1. unfold los_ok, los_coincidence. split.
  - intros (A & B & _ & C) [[D E]|[D|[D E]]]; [destruct A as [A|A]; [lra | contradiction] | contradiction | destruct (C D) as [C1 _]; contradiction].
  - intro N. split; [|split; [|split]].
    + destruct (Rle_dec 0 (v AED)); [left; assumption|]. right. intro Q. apply N. left. split; [lra | exact Q].
    + intro Q. apply N. right. left. exact Q.
    + apply RF. exact P1.
    + intro L. split; [|apply RF; exact P0]. intro Q. apply N. right. right. split; assumption.
Qed.
Lemma scat_ok_iff v : 0 < scat_angle v (scat_d5 v) -> (scat_ok v <-> ~ scat_coincidence v).
Proof.
  intro S. unfold scat_ok, scat_coincidence. cbv zeta. set (a6 := scatter v (scat_d6 v) _). set (a5 := scatter v (scat_d5 v) _). clearbody a6 a5. split.
  - intros [_ A] [B C]. exact (A B C).
  - intro N. split; [exact S|]. intros L Q. apply N. split; assumption.
Qed.
Lemma runs_iff v x : (forall d, 0 < d -> reflects v d) -> 0 < fit_d0 v -> 0 < fit_d1 v -> 0 < scat_angle v (scat_d5 v) -> (runs_at v x <-> ~ divides_by_zero v x).
Proof.
  intros RF P0 P1 S. unfold runs_at, divides_by_zero. rewrite (los_ok_iff v RF P0 P1), (scat_ok_iff v S). split.
  - intros [A B] [[C D]|[C D]]; [exact (A C D) | exact (B C D)].
  - intro N. split; intros L Q; apply N; [left | right]; split; assumption.
Qed.

Definition area_gme : R := 157 / 1000000000 * (1 - 4665 / 100000 * exp (301 / (1793 / 10))).
Lemma area_gme_range : 1 / 10000000 <= area_gme <= 250 / 1000000000.
Proof. unfold area_gme. split; interval with (i_prec 53). Qed.
Lemma sqrt14 : 3 < sqrt (15 - 1).
Proof. interval with (i_prec 53). Qed.
Lemma env_runs (p : prop RA) f h0 h1 dh : area_request p f h0 h1 dh -> exists q w, area_env RA p = Ok q /\ values q area_in w /\
  pz q LVAR = Some 0%Z /\ pz q MDVARX = Some 3%Z /\ pz q KLIMX = Some 5%Z /\ pz q KWX = Some 0%Z /\
  0.02 <= w WN /\ w GME = area_gme /\ w HG0 = h0 /\ w HG1 = h1 /\ w DH = dh /\ 0 < w ZGR /\ (w ZGI <> 0 \/ 1 < w ZGR) /\ 0.15 <= sqrt (w ZGR ^ 2 + w ZGI ^ 2).
Proof.
  intros (F & G0 & G1 & D & (pol & I) & Pf & _). 
  set (wn := f / (477 / 10)). assert (W : 0.02 <= wn) by (unfold wn; lra).
  unfold area_env. dsimp. rewrite (proj2 (pn_getn RA p FMHZ f) F). cbn [bind n_div n_lit n_Z RA]. rewrite r_div_ok by lra. cbn [bind]. fold wn.
  set (p0 := setn (setz (setz (setz (setn (setn (setn p ENS0 301) EPS 15) SGM (1 / 1000)) KLIMX 5) MDVARX 3) KWX 0) WN wn).
  destruct (script_gme_run 301 (157 / 1000000000) p0) as (q1 & G & GM & EN & Fr). fold area_gme in GM.
  match goal with |- context [bind ?m _] => replace m with (Ok q1) by (symmetry; exact G) end. cbn [bind n_mul n_sub m_sqrt RA]. rewrite r_div_ok by lra. cbn [bind]. rewrite r_sqrt_ok by lra. cbn [bind].
  assert (PI : pz (setz q1 LVAR 0) IPOL = Some pol) by (change (pz q1 IPOL = Some pol); rewrite (fr_pz _ _ _ _ _ IPOL Fr) by reflexivity; exact I).
  rewrite (proj2 (pz_getz RA _ IPOL pol) PI). cbn [bind].
  set (t := 37662 / 100 * (1 / 1000) / wn). assert (T : 0 < t) by (apply Rdiv_lt_0_compat; lra).
  assert (T2 : t <= 18).
  { unfold t. apply (Rmult_le_reg_r wn); [lra|]. unfold Rdiv at 1. rewrite Rmult_assoc, Rinv_l by lra. unfold wn. lra. }
  assert (NZ : cnorm2 (15, t) <> 0) by (unfold cnorm2; cbn [fst snd]; nra).
  assert (S := sqrt14). set (s := sqrt (15 - 1)) in *. assert (SS : s * s = 14) by (unfold s; replace 14 with (15 - 1) by lra; apply sqrt_sqrt; lra).
  assert (Z : exists zr zi : R, (if negb (pol =? 0)%Z then @c_div RA (@c_real RA s) (15, t) else Ok (@c_real RA s)) = Ok (zr, zi) /\ 0 < zr /\ (zi <> 0 \/ 1 < zr) /\ 0.15 <= sqrt (zr ^ 2 + zi ^ 2)).
  { clearbody s. assert (L : forall x, 0.0225 <= x -> 0.15 <= sqrt x).
    { intros x X. replace 0.15 with (sqrt (0.15 * 0.15)) by (apply sqrt_square; lra). apply sqrt_le_1_alt. lra. }
    destruct (negb (pol =? 0)%Z).
    - set (n := 225 + t ^ 2). assert (N : 0 < n <= 549) by (unfold n; nra).
      exists (s * 15 / n), (- (s * t / n)). split; [|split; [|split]].
      + pose proof (PfTotal2.c_div_ok (s, 0) (15, t) NZ) as E. unfold c_real. cbn [n_Z RA]. refine (eq_trans E _). unfold cquot, cscale. cbn [fst snd]. f_equal. apply f_equal2; unfold n, cnorm2; cbn [fst snd]; field; nra.
      + apply Rdiv_lt_0_compat; lra.
      + left. assert (0 < s * t / n) by (apply Rdiv_lt_0_compat; nra). lra.
      + apply L. replace ((s * 15 / n) ^ 2 + (- (s * t / n)) ^ 2) with (14 / n).
        * apply (Rmult_le_reg_r n); [lra|]. unfold Rdiv. rewrite Rmult_assoc, Rinv_l by lra. lra.
        * rewrite <- SS. unfold n. field. nra.
    - exists s, 0. split; [reflexivity|]. split; [lra|]. split; [right; lra|]. apply L. nra. }
  destruct Z as (zr & zi & EZ & Z1 & Z2 & Z3).
  match goal with |- context [bind ?m _] => replace m with (Ok (zr, zi) : res (R * R)) by (symmetry; exact EZ) end. cbn [bind fst snd].
  exists (setn (setn (setz q1 LVAR 0) ZGR zr) ZGI zi), (fun k => match k with WN => wn | GME => area_gme | ENS => 301 | HG0 => h0 | HG1 => h1 | DH => dh | ZGR => zr | ZGI => zi | _ => 0 end).
  split; [reflexivity|]. split.
  { intros k J. cbn in J. repeat (destruct J as [<-|J]; [first [reflexivity | exact GM | exact EN
      | match goal with |- pn _ ?j = _ => change (pn q1 j = Some (match j with WN => wn | GME => area_gme | ENS => 301 | HG0 => h0 | HG1 => h1 | DH => dh | ZGR => zr | ZGI => zi | _ => 0 end)); rewrite (fr_pn _ _ _ _ _ j Fr) by reflexivity; first [assumption | reflexivity] end]|]). destruct J. }
  split; [reflexivity|].
  split; [change (pz q1 MDVARX = Some 3%Z); rewrite (fr_pz _ _ _ _ _ MDVARX Fr) by reflexivity; reflexivity|].
  split; [change (pz q1 KLIMX = Some 5%Z); rewrite (fr_pz _ _ _ _ _ KLIMX Fr) by reflexivity; reflexivity|].
  split; [change (pz q1 KWX = Some 0%Z); rewrite (fr_pz _ _ _ _ _ KWX Fr) by reflexivity; reflexivity|].
  repeat (split; [first [assumption | reflexivity]|]). exact Z3.
Qed.

(** The preparation and the first call: what the loop needs. *)
Lemma prep_runs k0 k1 (p : prop RA) f h0 h1 dh : area_request p f h0 h1 dh -> exists q0 q v, area_env RA p = Ok q0 /\ qlra RA k0 k1 q0 = Ok q /\
  values q (ENS :: setup_inputs) v /\ reference_params v false /\ physical v /\ ground_ok v /\ (forall d, 0 < d -> reflects v d) /\ 0 < scat_angle v (scat_d5 v) /\
  fresh v q /\ stat_on q /\ v DLA <= v DLSA.
Proof.
  intro A. destruct (env_runs p f h0 h1 dh A) as (q0 & w & E0 & V & L & M & K & KW & W & GM & HA & HB & HD & ZR & ZI & ZM).
  destruct A as (_ & _ & _ & _ & _ & _ & B0 & B1 & BD). assert (GR := area_gme_range). rewrite <- GM in GR. subst h0 h1 dh.
  destruct (qlra_runs k0 k1 q0 w 0%Z 3%Z 5%Z 0%Z V L M K KW ltac:(lia) ltac:(lia) ltac:(lra) GR B0 B1 BD ZR) as (q & u & E & VU & UW & MQ & KQ & ST & P & D0 & D1 & EX & SA & C0 & C1).
  assert (Gk : ground_ok u).
  { apply low_ground; try assumption; rewrite !UW by inks; try assumption; lra. }
  destruct (setup_total q u 1%Z 0%Z VU MQ KQ P Gk) as [q1 E1].
  destruct (setup_value q q1 1%Z MQ E1) as (GP & DP & LP & VQ & _). assert (F := E1). apply lr_setup_frame in F.
  assert (X : forall k, In k (ENS :: setup_inputs) -> u k = vals q1 k).
  { intros k I. symmetry. apply vals_some. rewrite <- (VU k I). apply (fr_pn _ _ _ _ _ k F). cbn in I; repeat (destruct I as [<-|I]; [reflexivity|]); destruct I. }
  assert (VV : values q (ENS :: setup_inputs) (vals q1)) by (intros k I; rewrite (VU k I), (X k I); reflexivity).
  assert (P' : physical (vals q1)) by (eapply physical_ext; [|exact P]; intros k I; apply X; right; exact I).
  assert (G' : ground_ok (vals q1)) by (eapply ground_ext; [|exact Gk]; intros k I; apply X; right; exact I).
  exists q0, q, (vals q1). split; [exact E0|]. split; [exact E|]. split; [exact VV|]. split; [split; [exact GP | split; [exact DP | exact LP]]|]. split; [exact P'|]. split; [exact G'|].
  split.
  { intros d Dp. unfold reflects. rewrite <- !X by inks. rewrite !UW by inks. destruct ZI as [ZI|ZI]; [left; exact ZI|]. right. intro Q.
    destruct P' as (_ & _ & _ & _ & _ & P0 & P1 & _). assert (GG := graze_pos (vals q1) d P0 P1 Dp). lra. }
  rewrite (X THE0), (X THE1), (X DL0), (X DL1), (X GME) in SA by inks. rewrite !X in C0, C1 by inks. destruct GP as (g1 & g2 & g3 & g4 & _).
  split; [unfold scat_angle, scat_d5; rewrite g4; exact SA|].
  split; [split; [exact VV|]; split; [exact MQ | eauto]|]. split; [exact ST|]. rewrite g3, g4, g1, g2. lra.
Qed.

Lemma pct_ok (x : R) : @n_div RA x (IZR 100) = Ok (x / 100).
Proof. cbn [n_div RA]. apply r_div_ok. lra. Qed.
Lemma mapM_pct (l : list R) : exists m, mapM (fun x : num RA => @n_div RA x (@n_Z RA 100)) l = Ok m.
Proof.
  induction l as [|x l [m E]]; [exists []; reflexivity|]. cbn [mapM]. change (@n_Z RA 100) with (IZR 100) in *. rewrite pct_ok. cbn [bind]. rewrite E. cbn [bind]. eauto.
Qed.
Lemma grid_positive (D0 DS1 DS2 : R) n1 n2 d : 0 < D0 -> 0 < DS1 -> 0 < DS2 \/ n2 = 0%nat -> In d (area_distances D0 DS1 DS2 n1 n2) -> 0 < d.
Proof.
  intros P S T I. apply in_app_or in I as [I|I]; apply in_map_iff in I as (i & <- & J); assert (Q := pos_INR i); [nra|].
  destruct T as [T| ->]; [|destruct J]. assert (Q1 := pos_INR (n1 - 1)). assert (Q2 := pos_INR (Datatypes.S i)). nra.
Qed.
Lemma start_positive D0 DS1 : 0 < start_distance D0 DS1.
Proof. unfold start_distance. repeat destruct (Rlt_dec _ _); lra. Qed.

(** Any grid: a table or a division by zero, exactly when. *)
Lemma area_exact (c : area_cfg RA) (p : prop RA) f h0 h1 dh : area_request p f h0 h1 dh -> start_distance (cfg_D0 RA c) (cfg_DS1 RA c) < cfg_D1 RA c -> 0 < cfg_DS1 RA c ->
  exists v n1 n2, area_values (cfg_KST0 RA c) (cfg_KST1 RA c) p v /\ (0 <= v AED -> ~ los_coincidence v) /\
    let ds := area_distances (start_distance (cfg_D0 RA c) (cfg_DS1 RA c)) (cfg_DS1 RA c) (cfg_DS2 RA c) n1 n2 in
    area_grid_counts c n1 n2 /\
    ((exists d, In d ds /\ divides_by_zero v (d * 1000)) -> itmlogic_area_cfg RA c p = Err ZeroDivisionError) /\
    (~ (exists d, In d ds /\ divides_by_zero v (d * 1000)) -> exists rows, itmlogic_area_cfg RA c p = Ok rows /\ map fst rows = flat_map (fun d => map (fun q => (d, q)) (cfg_QC RA c)) ds).
Proof.
  intros A L S. destruct (prep_runs (cfg_KST0 RA c) (cfg_KST1 RA c) p f h0 h1 dh A) as (q0 & q & v & E0 & E & V & RP & PH & GK & RF & SA & FR & ST & DD).
  set (D0 := start_distance (cfg_D0 RA c) (cfg_DS1 RA c)) in *. assert (PD : 0 < D0) by apply start_positive.
  destruct (grid_some D0 (cfg_D1 RA c) (cfg_DS1 RA c) (cfg_D2 RA c) (cfg_DS2 RA c) L S) as (n1 & n2 & N & N1 & EG & R1 & R2).
  exists v, n1, n2. split; [split; [exact RP | exists q0, q; auto]|].
  assert (PH' := PH). destruct PH' as (W & G & _ & _ & _ & H0 & H1 & L0 & L1 & _). assert (GP := RP). destruct GP as (GP & _). assert (PS := dlsa_pos v GP G H0 H1).
  assert (LA : 0 < v DLA) by (destruct GP as (_ & _ & _ & -> & _); lra).
  assert (F0 : 0 < fit_d0 v) by (apply d0_pos; assumption). assert (F1 : 0 < fit_d1 v) by (apply d1_pos; assumption).
  split.
  { intros An. assert (Fa : fit_d0 v <= 0.5 * v DLA) by (unfold fit_d0, los_d0; cbv zeta; destruct (Rle_dec 0 (v AED)); [apply Rmin_r | lra]).
    assert (Fb : fit_d1 v <= 0.625 * v DLA) by (unfold fit_d1, los_d1; destruct (Rle_dec 0 (v AED)); [|lra]; fold (fit_d0 v); lra).
    intros [[Q _]|[Q|[_ Q]]]; lra. }
  cbv zeta. set (ds := area_distances D0 (cfg_DS1 RA c) (cfg_DS2 RA c) n1 n2).
  split.
  { unfold area_grid_counts. fold D0. cbv zeta. split; [exact N1|]. split; [exact R1|]. destruct R2 as [(a & b & _ & r)|(n & _ & z)]; [destruct (Rlt_dec _ _); [|contradiction]; destruct (Rlt_dec _ _); [exact r | contradiction]|].
    destruct (Rlt_dec _ _); [|exact z]. destruct (Rlt_dec _ _); [|exact z]. exfalso. apply n. split; assumption. }
  assert (ED : dists RA (n1 + n2) 0 N D0 (cfg_DS1 RA c) (cfg_DS2 RA c) = ds).
  { unfold ds, area_distances. destruct R2 as [(_ & _ & -> & _)|(_ & -> & ->)].
    - destruct n1 as [|k]; [lia|]. change (Z.of_nat (Datatypes.S k)) with (0 + Z.of_nat (Datatypes.S k))%Z. rewrite dists_switch by lia. replace (Datatypes.S k - 1)%nat with k by lia. reflexivity.
    - rewrite Nat.add_0_r. rewrite dists_const by lia. cbn [seq map]. rewrite app_nil_r. reflexivity. }
  assert (PO : forall d, In d ds -> 0 < d).
  { intros d I. eapply grid_positive; [exact PD | exact S | | exact I]. destruct R2 as [(_ & b & _)|(_ & _ & z)]; [left; exact b | right; exact z]. }
  destruct (qerfi1_total (cfg_QT RA c / 100)) as [ZT ET]. destruct (qerfi1_total (cfg_QL RA c / 100)) as [ZL EL].
  destruct (mapM_pct (cfg_QC RA c)) as [qc EQ]. destruct (qerfi_total qc) as (ZC & EZ & _).
  assert (RUN : itmlogic_area_cfg RA c p = area_loop RA (n1 + n2) 0 N D0 (cfg_DS1 RA c) (cfg_DS2 RA c) ZT ZL (combine (cfg_QC RA c) ZC) q).
  { unfold itmlogic_area_cfg. change (@n_Z RA 100) with (IZR 100) in *. rewrite pct_ok. cbn [bind]. change (num RA) with R in *. rewrite ET. cbn [bind]. rewrite pct_ok. cbn [bind]. rewrite EL. cbn [bind]. rewrite EQ. cbn [bind]. rewrite EZ. cbn [bind].
    rewrite grid_from_eq. fold D0. rewrite EG. cbn [bind]. rewrite E0. cbn [bind]. rewrite E. cbn [bind opt_res]. rewrite Nat2Z.id. reflexivity. }
  assert (X := loop_exact v PH RP GK RF SA (n1 + n2) 0%Z N D0 (cfg_DS1 RA c) (cfg_DS2 RA c) ZT ZL (combine (cfg_QC RA c) ZC) q). rewrite ED in X. specialize (X PO (or_intror FR) ST). rewrite <- RUN in X.
  assert (Y : forall x, runs_at v x <-> ~ divides_by_zero v x) by (intro x; apply runs_iff; assumption).
  split.
  - intros (d & I & B). destruct X as [[OKd _]|[_ X]]; [|exact X]. exfalso. exact (proj1 (Y _) (OKd d I) B).
  - intro NB. destruct X as [[_ (rows & X)]|[(d & I & B) _]].
    + exists rows. split; [exact X|]. destruct (area_keys RA c p rows X) as (e0 & DS & ND & NDC & Gr & Kr). rewrite grid_from_eq in Gr. fold D0 in Gr. rewrite EG in Gr. injection Gr as <- <- <- <-. rewrite Kr, Nat2Z.id, ED. reflexivity.
    + exfalso. apply B, Y. intro Q. apply NB. exists d. auto.
Qed.

(** The grid of the script. *)
Lemma nat_between n (a : Z) : IZR a - 1 < INR n < IZR a + 1 -> Z.of_nat n = a.
Proof. rewrite INR_IZR_INZ. intros [A B]. assert (a - 1 < Z.of_nat n)%Z by (apply lt_IZR; rewrite minus_IZR; lra). assert (Z.of_nat n < a + 1)%Z by (apply lt_IZR; rewrite plus_IZR; lra). lia. Qed.
Lemma default_counts n1 n2 : area_grid_counts (area_default RA) n1 n2 -> n1 = 15%nat /\ n2 = 7%nat.
Proof.
  intros (N & R1 & R2). cbn [area_default cfg_D0 cfg_DS1 cfg_D1 cfg_D2 cfg_DS2 n_Z RA] in *. unfold start_distance in *. destruct (Rlt_dec 0 10); [|lra].
  assert (E1 : (n1 - 1)%nat = 14%nat).
  { unfold reaches in R1. assert (Q := nat_between (n1 - 1) 14 ltac:(lra)). lia. }
  rewrite E1 in R2. assert (I14 : INR 14 = 14) by (rewrite INR_IZR_INZ; reflexivity). rewrite I14 in R2. destruct (Rlt_dec _ _); [|lra]. destruct (Rlt_dec _ _); [|lra]. unfold reaches in R2.
  assert (Q := nat_between n2 7 ltac:(lra)). lia.
Qed.
Lemma default_distances : area_distances 10 10 50 15 7 = script_distances.
Proof. unfold area_distances, script_distances. cbn [map seq app Nat.sub INR]. repeat (apply f_equal2; [lra|]). reflexivity. Qed.
Lemma script_exact (p : prop RA) f h0 h1 dh : area_request p f h0 h1 dh -> exists v, area_values 2 2 p v /\ (0 <= v AED -> ~ los_coincidence v) /\
  ((exists x, In x script_distances /\ divides_by_zero v (x * 1000)) -> itmlogic_area RA p = Err ZeroDivisionError) /\
  (~ (exists x, In x script_distances /\ divides_by_zero v (x * 1000)) -> exists rows, itmlogic_area RA p = Ok rows /\ map fst rows = flat_map (fun d => map (fun q => (d, q)) [50; 90; 10]) script_distances).
Proof.
  intro A. destruct (area_exact (area_default RA) p f h0 h1 dh A) as (v & n1 & n2 & V & Z & C & B & O).
  - cbn [area_default cfg_D0 cfg_DS1 cfg_D1 n_Z RA]. unfold start_distance. destruct (Rlt_dec 0 10); lra.
  - cbn [area_default cfg_DS1 n_Z RA]. lra.
  - destruct (default_counts n1 n2 C) as [-> ->]. exists v. split; [exact V|]. split; [exact Z|].
    change (cfg_DS1 RA (area_default RA)) with 10 in *. change (cfg_D0 RA (area_default RA)) with 10 in *. change (cfg_DS2 RA (area_default RA)) with 50 in *. change (cfg_QC RA (area_default RA)) with [50; 90; 10] in *.
    assert (S10 : start_distance 10 10 = 10) by (unfold start_distance; destruct (Rlt_dec 0 10); lra). rewrite S10, default_distances in B, O. exact (conj B O).
Qed.
Lemma any_grid (c : area_cfg RA) (p : prop RA) f h0 h1 dh : area_request p f h0 h1 dh -> start_distance (cfg_D0 RA c) (cfg_DS1 RA c) < cfg_D1 RA c -> 0 < cfg_DS1 RA c ->
  (exists rows, itmlogic_area_cfg RA c p = Ok rows) \/ itmlogic_area_cfg RA c p = Err ZeroDivisionError.
Proof.
  intros A L S. destruct (area_exact c p f h0 h1 dh A L S) as (v & n1 & n2 & _ & _ & _ & B & O). cbv zeta in *.
  destruct (Classical_Prop.classic (exists d, In d (area_distances (start_distance (cfg_D0 RA c) (cfg_DS1 RA c)) (cfg_DS1 RA c) (cfg_DS2 RA c) n1 n2) /\ divides_by_zero v (d * 1000))) as [Q|Q]; [right; auto|].
  left. destruct (O Q) as (rows & R & _). eauto.
Qed.
(** A caller that gives only the five entries. *)
Definition area_call (f h0 h1 dh : R) (pol : Z) : prop RA := setz (setn (setn (setn (setn (empty_prop RA) FMHZ f) HG0 h0) HG1 h1) DH dh) IPOL pol.
Lemma area_call_request f h0 h1 dh pol : 1 <= f -> 0.5 <= h0 <= 3000 -> 0.5 <= h1 <= 3000 -> 0 <= dh <= 500 -> area_request (area_call f h0 h1 dh pol) f h0 h1 dh.
Proof. intros. repeat split; try reflexivity; try lra. exists pol. reflexivity. Qed.
