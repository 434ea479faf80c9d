(** p2p.py: the preparation of the path over the reals. *)
From Interval Require Import Tactic.
From Coq Require Classical_Prop.
From Verif Require Import RInst Frame RTac SpecLr SpecQuant PfFrame PfLrGen PfPrepGen PfRegime PfAtten PfAvarReal PfStats PfSetup PfRealRun PfHzns PfDlthx PfTerminal PfPfl SpecTotal PfTotal PfTotal2 PfTotal3 PfTotal4 PfTotal6 PfMode PfMisc PfAreaRun PfAreaRun2 PfAreaRun4 SpecPathRun PfPathRun PfReverse4 Scripts Prep Stats LrProp Dict Arith.
Open Scope R_scope.

(** ** The terrain parameters *)
Definition terrain_keys : list nkey := [DH; HE0; HE1; DL0; DL1; THE0; THE1].
Lemma geom_ext (p q r : prop RA) : ppfl p = ppfl q -> (forall k, In k [HG0; HG1; GME] -> pn p k = pn q k) -> qlrpfl_geom RA p = Ok r ->
  exists s, qlrpfl_geom RA q = Ok s /\ forall k, In k (DIST :: terrain_keys) -> pn s k = pn r k.
Proof.
  intros F E H. unfold qlrpfl_geom in *. unfold getpfl in *. rewrite <- F. apply bind_inv in H as (f & Ef & H). rewrite Ef. cbn [bind]. cbv zeta in H |- *. dsimp_in H. dsimp.
  unfold getn in *. rewrite <- (E HG0), <- (E HG1), <- (E GME) by inks.
  do 3 (apply bind_inv in H as (? & X & H); rewrite X; cbn [bind]; clear X).
  apply bind_inv in H as ([[[t0 t1] d0] d1] & X & H). rewrite X. cbn [bind]. clear X.
  apply bind_inv in H as (dh & X & H). rewrite X. cbn [bind]. clear X.
  apply bind_inv in H as ([[[a0 a1] [b0 b1]] [c0 c1]] & X & H). rewrite X. cbn [bind]. clear X.
  apply ok_inj in H. subst r. eexists. split; [reflexivity|]. intros k I. cbn in I. repeat (destruct I as [<-|I]; [reflexivity|]). destruct I.
Qed.
Lemma takeoff_ge he gme dh : 0 < he -> 0 < gme -> 0 <= dh -> - (smooth_horizon he gme * gme) <= takeoff_angle he gme dh.
Proof.
  intros H G D. assert (S := smooth_pos he gme H G). destruct (rough_bounds he gme dh H G D) as [[R0 R1] _]. unfold takeoff_angle. cbv zeta.
  set (s := smooth_horizon he gme) in *. set (r := rough_horizon he gme dh) in *.
  assert (SS : s * s = 2 * he / gme) by (unfold s, smooth_horizon; apply sqrt_sqrt; left; apply Rdiv_lt_0_compat; lra).
  assert (Q : 1 <= s / r) by (apply (Rmult_le_reg_r r); [exact R0|]; unfold Rdiv; rewrite Rmult_assoc, Rinv_l by lra; lra).
  apply (Rmult_le_reg_r s); [exact S|]. unfold Rdiv at 1. rewrite Rmult_assoc, Rinv_l by lra.
  assert (s * s * gme = 2 * he) by (rewrite SS; field; lra). clearbody s r. nra.
Qed.
(** All that the later stages need of the terrain parameters. *)
Lemma terrain_exist f (h0 h1 gme : R) : well_formed f -> 0 < h0 -> 0 < h1 -> 0 < gme -> exists u : nkey -> R,
  (forall (v : nkey -> R) q, v HG0 = h0 -> v HG1 = h1 -> v GME = gme -> path_entries q f v -> exists r, qlrpfl_geom RA q = Ok r /\ values r terrain_keys u /\ pn r DIST = Some (path_length f)) /\
  0 <= u DH /\ h0 <= u HE0 /\ h1 <= u HE1 /\ 0 < u DL0 /\ 0 < u DL1 /\
  (sqrt (2 * u HE0 / gme) + sqrt (2 * u HE1 / gme) <= path_length f -> path_length f <= 200000 -> 0 < u THE0 + u THE1 + (u DL0 + u DL1 + 200000) * gme).
Proof.
  intros W P0 P1 G. set (e := fun k => match k with HG0 => h0 | HG1 => h1 | _ => gme end).
  set (p := setn (setn (setn (setpfl (empty_prop RA) f) HG0 (h0 : num RA)) HG1 (h1 : num RA)) GME (gme : num RA)).
  assert (PE : path_entries p f e).
  { split; [reflexivity|]. split; [exact W|]. split; [|cbn; lra]. intros k [<-|[<-|[<-|[]]]]; reflexivity. }
  destruct (geom_run p f e PE) as (q & t0 & t1 & d0 & d1 & dh & E & O). exists (vals q).
  assert (LP := len_pos f W). unfold pfl_outcome in O. cbv zeta in O. destruct O as (Eh & Ed & Dh & OB & OL). cbn [e] in Eh, Ed, OB, OL.
  destruct (hzns_spec f h0 h1 gme W) as (s0 & s1 & e0 & e1 & Eh' & I0 & I1 & M0 & M1 & _). change (num RA) with R in *. rewrite Eh in Eh'. injection Eh' as <- <- <- <-.
  assert (D0 : 0 < d0 <= path_length f) by (eapply sights_dist; [exact W | exact I0]).
  assert (D1 : 0 < d1 <= path_length f) by (change (path_length f) with (path_length (reverse_profile f)); eapply sights_dist; [apply wf_rev; exact W | exact I1]).
  assert (DHP : 0 <= dh).
  { assert (X0 : 0 < setback h0 d0 <= d0 / 10) by (split; [apply Rmin_glb_lt; lra | apply Rmin_r]). assert (X1 : 0 < setback h1 d1 <= d1 / 10) by (split; [apply Rmin_glb_lt; lra | apply Rmin_r]).
    destruct (dlthx_total f (setback h0 d0) (path_length f - setback h1 d1) W ltac:(lra) ltac:(lra)) as (dh' & Ed' & Dh'). change (num RA) with R in *. rewrite Ed in Ed'. injection Ed' as <-. exact Dh'. }
  assert (SUM : - (path_length f * gme) <= t0 + t1).
  { assert (A0 := M0 _ _ (or_introl eq_refl)). assert (A1 := M1 _ _ (or_introl eq_refl)). change (path_length (reverse_profile f)) with (path_length f) in A1. unfold sight_angle in A0, A1.
    set (a := ground f 0 + h0) in *. set (b := ground f (intervals f) + h1) in *. assert ((b - a) / path_length f + (a - b) / path_length f = 0) by (field; lra). lra. }
  assert (ALL : exists he0 he1 l0 l1 a0 a1 : R, pn q HE0 = Some he0 /\ pn q HE1 = Some he1 /\ pn q DL0 = Some l0 /\ pn q DL1 = Some l1 /\ pn q THE0 = Some a0 /\ pn q THE1 = Some a1 /\
    h0 <= he0 /\ h1 <= he1 /\ 0 < l0 /\ 0 < l1 /\ (sqrt (2 * he0 / gme) + sqrt (2 * he1 / gme) <= path_length f -> path_length f <= 200000 -> 0 < a0 + a1 + (l0 + l1 + 200000) * gme)).
  { destruct (Rlt_dec (d0 + d1) (3 / 2 * path_length f)) as [B|B].
    - destruct (OB B) as (za & za' & zb' & zb & _ & _ & A0 & A1 & B0 & B1 & C0 & C1). do 6 eexists. do 6 (split; [eassumption|]).
      split; [apply above_ge|]. split; [apply above_ge|]. split; [lra|]. split; [lra|]. intros _ L. nra.
    - destruct (OL ltac:(lra)) as (za & zb & s & _ & S1 & A0 & A1 & B0 & B1 & C0 & C1 & CV & _). do 6 eexists. do 6 (split; [eassumption|]).
      assert (Q0 := above_ge h0 (ground f 0) za). assert (Q1 := above_ge h1 (ground f (intervals f - 1)) zb). set (x0 := above_trend h0 _ za) in *. set (x1 := above_trend h1 _ zb) in *.
      assert (N0 : h0 <= x0 * s) by nra. assert (N1 : h1 <= x1 * s) by nra. split; [exact N0|]. split; [exact N1|].
      assert (T0 := takeoff_ge (x0 * s) gme dh ltac:(lra) G DHP). assert (T1 := takeoff_ge (x1 * s) gme dh ltac:(lra) G DHP).
      destruct (rough_bounds (x0 * s) gme dh ltac:(lra) G DHP) as [[R0 _] _]. destruct (rough_bounds (x1 * s) gme dh ltac:(lra) G DHP) as [[R1 _] _]. split; [exact R0|]. split; [exact R1|].
      intros L _. change (sqrt (2 * (x0 * s) / gme)) with (smooth_horizon (x0 * s) gme) in L. change (sqrt (2 * (x1 * s) / gme)) with (smooth_horizon (x1 * s) gme) in L. nra. }
  destruct ALL as (he0 & he1 & l0 & l1 & a0 & a1 & A0 & A1 & B0 & B1 & C0 & C1 & N0 & N1 & L0 & L1 & AN).
  split.
  { intros v r V0 V1 VG (Pf & _ & Vr & _). destruct (geom_ext p r q) as (s & Es & Ks); [rewrite Pf; reflexivity| |exact E|].
    - intros k [<-|[<-|[<-|[]]]]; rewrite (Vr _) by inks; rewrite ?V0, ?V1, ?VG; reflexivity.
    - exists s. split; [exact Es|]. split.
      + intros k I. rewrite Ks by (right; exact I). cbn in I. repeat (destruct I as [<-|I]; [match goal with H : pn q ?k = Some ?x |- pn q ?k = _ => rewrite H; f_equal; symmetry; apply vals_some; exact H end|]). destruct I.
      + rewrite Ks by (left; reflexivity). unfold qlrpfl_geom, getpfl in E. change (ppfl p) with (Some f) in E. cbn [opt_res bind] in E. cbv zeta in E.
        do 3 (apply bind_inv in E as (? & _ & E)). apply bind_inv in E as ([[[? ?] ?] ?] & _ & E). apply bind_inv in E as (? & _ & E). apply bind_inv in E as ([[[? ?] [? ?]] [? ?]] & _ & E).
        apply ok_inj in E. subst q. transitivity (Some (IZR (pf_np f) * (pf_xi f : R))); [reflexivity|]. f_equal. apply path_length_Z. exact W. }
  rewrite (vals_some q DH dh Dh), (vals_some q HE0 _ A0), (vals_some q HE1 _ A1), (vals_some q DL0 _ B0), (vals_some q DL1 _ B1), (vals_some q THE0 _ C0), (vals_some q THE1 _ C1).
  split; [exact DHP|]. split; [exact N0|]. split; [exact N1|]. split; [exact L0|]. split; [exact L1 | exact AN].
Qed.

(** ** The radio parameters *)
Lemma path_zgnd (wn : R) ipol : 0 < wn -> exists zr zi : R, p2p_zgnd RA 15 (5 / 1000)%R wn ipol = Ok (zr, zi) /\ 0 < zr /\ zi <> 0 /\
  forall f, wn = f / (477 / 10) -> qlrps RA f 0 314 ipol 15 (5 / 1000)%R = Ok (wn, script_curvature, 314, (zr, zi)).
Proof.
  intro W. set (t := 37662 / 100 * (5 / 1000) / wn). assert (T : 0 < t) by (apply Rdiv_lt_0_compat; lra).
  destruct (csqrt_root (15 - 1) t) as [[a b] [Er (Pr & P0 & P1 & _)]]. unfold cmul in Pr. cbn [fst snd] in Pr, P0, P1. injection Pr as Q1 Q2.
  assert (PA : 0 < a) by nra. assert (PB : 0 < b) by nra. assert (A2 : 14 <= a * a) by nra.
  assert (NZ : cnorm2 (15, t) <> 0) by (unfold cnorm2; cbn [fst snd]; nra).
  assert (GC : 157 / 1000000000 * (1 - 4665 / 100000 * exp (314 / (1793 / 10))) = script_curvature).
  { unfold script_curvature. replace (314 / (1793 / 10)) with (314 / 179.3) by lra. lra. }
  assert (QL : forall zr zi, (if negb (ipol =? 0)%Z then @c_div RA (a, b) (15, t) else Ok (a, b)) = Ok (zr, zi) ->
    forall f, wn = f / (477 / 10) -> qlrps RA f 0 314 ipol 15 (5 / 1000)%R = Ok (wn, script_curvature, 314, (zr, zi))).
  { intros zr zi E f Ef. unfold qlrps. cbn [n_Z n_lit n_div RA]. rewrite (r_div_ok f) by lra. rewrite <- Ef. cbn [bind n_eqb RA]. rewrite (proj2 (r_eqb_true 0 0) eq_refl). cbn [negb bind m_exp n_mul n_sub RA].
    rewrite r_div_ok by lra. cbn [bind]. rewrite r_div_ok by lra. cbn [bind]. fold t. rewrite Er. cbn [bind]. change (num RA) with R in *. rewrite <- GC.
    destruct (negb (ipol =? 0)%Z).
    - match goal with |- bind ?m _ = _ => replace m with (Ok (zr, zi) : res (R * R)) by (symmetry; exact E) end. reflexivity.
    - injection E as <- <-. reflexivity. }
  assert (ZG : forall zr zi, (if negb (ipol =? 0)%Z then @c_div RA (a, b) (15, t) else Ok (a, b)) = Ok (zr, zi) -> p2p_zgnd RA 15 (5 / 1000)%R wn ipol = Ok (zr, zi)).
  { intros zr zi E. unfold p2p_zgnd. cbn [n_Z n_lit n_div n_mul n_sub RA]. rewrite r_div_ok by lra. cbn [bind]. fold t. rewrite Er. cbn [bind]. exact E. }
  destruct (negb (ipol =? 0)%Z).
  - set (n := cnorm2 (15, t)) in *. assert (N : 0 < n) by (unfold n, cnorm2; cbn [fst snd]; nra).
    exists ((15 * a + t * b) / n), ((15 * b - t * a) / n).
    assert (E : @c_div RA (a, b) (15, t) = Ok ((15 * a + t * b) / n, (15 * b - t * a) / n)).
    { refine (eq_trans (PfTotal2.c_div_ok (a, b) (15, t) NZ) _). unfold cquot, cscale. cbn [fst snd]. fold n. f_equal. apply f_equal2; field; lra. }
    split; [apply ZG; exact E|]. split; [apply Rdiv_lt_0_compat; nra|]. split; [|apply QL; exact E].
    assert (X : 15 * b - t * a = b * (15 - 2 * (a * a))) by (rewrite <- Q2; ring). rewrite X. assert (b * (15 - 2 * (a * a)) < 0) by nra.
    assert (0 < / n) by (apply Rinv_0_lt_compat; exact N). unfold Rdiv. nra.
  - exists a, b. split; [apply ZG; reflexivity|]. split; [exact PA|]. split; [lra | apply QL; reflexivity].
Qed.
Definition path_ready (q : prop RA) (f : profile RA) (w : nkey -> R) (d : R) : Prop :=
  ppfl q = Some f /\ pn q DKM = Some d /\ values q [WN; GME; ENS; HG0; HG1; ZGR; ZGI] w /\
  pz q LVAR = Some 5%Z /\ pz q KLIM = Some 5%Z /\ pz q KWX = Some 0%Z /\ pz q KLIMX = Some 0%Z /\ pz q MDVARX = Some 11%Z.
Lemma prepare_runs (p : prop RA) z d f h0 h1 ipol : path_request p z d f h0 h1 ipol -> exists q w, p2p_prepare RA z p = qlrpfl RA q /\ path_ready q (script_path d z) w d /\ well_formed (script_path d z) /\
  path_length (script_path d z) = 1000 * d /\
  qlrps RA f 0 314 ipol 15 (5 / 1000)%R = Ok (w WN, w GME, w ENS, (w ZGR, w ZGI)) /\ 0 < w WN /\ w GME = script_curvature /\ w HG0 = h0 /\ w HG1 = h1 /\ 0 < w ZGR /\ w ZGI <> 0.
Proof.
  intros (F & D & G0 & G1 & I & Pf & Pd & P0 & P1 & L). set (wn := f / (477 / 10)). assert (W : 0 < wn) by (apply Rdiv_lt_0_compat; lra).
  destruct (path_zgnd wn ipol W) as (zr & zi & Ez & Z1 & Z2 & Q).
  assert (NP : 0 < IZR (Z.of_nat (length z) - 1)) by (apply IZR_lt; lia).
  unfold p2p_prepare. cbv zeta. dsimp. rewrite (proj2 (pn_getn RA p DKM d) D). cbn [bind].
  assert (Ef : p2p_profile RA d z = Ok (script_path d z)).
  { unfold p2p_profile. cbv zeta. change (num RA) with R in *. destruct (Z.eqb_spec (Z.of_nat (length z) - 1) 0); [lia|]. runfold. change (num RA) with R in *.
    unfold r_leb. destruct (Rle_dec d 0); [lra|]. rewrite r_div_ok by (change (IZR (Z.of_nat (length z) - 1) <> 0); lra). reflexivity. }
  rewrite Ef. cbn [bind]. dsimp. rewrite (proj2 (pn_getn RA p FMHZ f) F). cbn [bind n_div n_lit RA]. rewrite r_div_ok by lra. cbn [bind]. fold wn.
  match goal with |- context [script_gme RA ?e ?g ?a] => destruct (script_gme_run e g a) as (q1 & G & GM & EN & Fr) end.
  match goal with |- context [bind ?m _] => replace m with (Ok q1) by (symmetry; exact G) end. cbn [bind].
  assert (PI : pz q1 IPOL = Some ipol) by (rewrite (fr_pz _ _ _ _ _ IPOL Fr) by reflexivity; exact I).
  rewrite (proj2 (pz_getz RA _ IPOL ipol) PI). cbn [bind].
  match goal with |- context [bind ?m _] => replace m with (Ok (zr, zi) : res (R * R)) by (symmetry; exact Ez) end. cbn [bind].
  eexists _, (fun k => match k with WN => wn | GME => script_curvature | ENS => 314 | HG0 => h0 | HG1 => h1 | ZGR => zr | ZGI => zi | _ => 0 end).
  split; [reflexivity|]. split; [|split; [|split; [|split; [apply Q; reflexivity|]]]].
  - split; [|split; [|split; [|repeat split; first [reflexivity | match goal with |- pz _ ?j = ?x => change (pz q1 j = x); rewrite (fr_pz _ _ _ _ _ j Fr) by reflexivity; reflexivity end]]]].
    + cbn. destruct Fr as (_ & _ & _ & Fr). rewrite Fr. reflexivity.
    + cbn. rewrite (fr_pn _ _ _ _ _ DKM Fr) by reflexivity. exact D.
    + intros k J. cbn in J. repeat (destruct J as [<-|J]; [first [reflexivity | exact EN | cbn; rewrite GM; f_equal; unfold script_curvature; replace (314 / 179.3) with (314 / (1793 / 10)) by lra; cbn; lra
        | match goal with |- pn _ ?j = ?x => change (pn q1 j = x); rewrite (fr_pn _ _ _ _ _ j Fr) by reflexivity; first [assumption | reflexivity] end]|]). destruct J.
  - unfold well_formed, script_path. cbn [pf_np pf_xi pf_z]. change (num RA) with R. split; [lia|]. split; [|lia]. apply Rdiv_lt_0_compat; [lra | exact NP].
  - unfold path_length, script_path, intervals. cbn [pf_np pf_xi pf_z]. change (num RA) with R. rewrite ?INR_IZR_INZ. rewrite Z2Nat.id by lia. field. lra.
  - cbn. repeat split; try assumption; reflexivity.
Qed.
