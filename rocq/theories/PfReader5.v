(** Proofs about more or fewer heights than distances in pimter.py. *)
From Coq Require Import Lia Lra.
From Verif Require Import RTac Frame SpecTilt SpecPimter Stats Prep PfFrame PfRegime PfLrGen PfSort PfHzns PfLsq PfDlthx PfPfl PfAvarReal PfTilt PfTilt2 PfTilt3 PfReverse4 PfPimter PfPimterRun Scripts Reader RInst Arith.
Open Scope R_scope.

Definition longer (f : profile RA) (e : list R) : profile RA := @Profile RA (pf_np f) (pf_xi f) (pf_z f ++ e).
Section Longer.
Context (f : profile RA) (e : list R) (W : well_formed f).
Let g := longer f e.
Lemma pflget_longer (i : Z) : (0 <= i <= pf_np f + 2)%Z -> pflget g i = pflget f i.
Proof.
  intro I. destruct W as (N & _ & L). unfold pflget, pyget, pfl_list, g, longer. cbn [pf_np pf_xi pf_z]. cbv zeta. change (num RA) with R in *. cbn [length]. rewrite app_length.
  replace (i <? 0)%Z with false by (symmetry; apply Z.ltb_ge; lia). cbv iota. replace (i <? 0)%Z with false by (symmetry; apply Z.ltb_ge; lia). set (m := @length R (pf_z f)) in *. assert (M : Z.of_nat m = (pf_np f + 1)%Z) by exact L.
  destruct (Z.leb_spec (Z.of_nat (S (S (m + length e)))) i); [lia|]. destruct (Z.leb_spec (Z.of_nat (S (S m))) i); [lia|].
  cbn [orb]. f_equal. destruct (Z.to_nat i) as [|[|k]] eqn:K; [reflexivity|reflexivity|]. cbn [nth_error]. apply nth_error_app1. fold m. lia.
Qed.
Lemma hzns_loop_longer xi za zb qc c : forall i s, (0 <= i)%Z -> (i + Z.of_nat c <= pf_np f + 3)%Z -> hzns_loop RA g xi za zb qc c i s = hzns_loop RA f xi za zb qc c i s.
Proof.
  induction c as [|c IH]; intros i s I B; cbn [hzns_loop]; [reflexivity|]. rewrite pflget_longer by lia. destruct (pflget f i); [|reflexivity]. cbn [bind].
  destruct (hzns_step RA xi za zb qc s a); [|reflexivity]. cbn [bind]. apply IH; lia.
Qed.
Lemma hzns_longer d h0 h1 ge : hzns RA g d h0 h1 ge = hzns RA f d h0 h1 ge.
Proof.
  destruct W as (N & _). unfold hzns. cbv zeta. change (pf_np g) with (pf_np f). change (pf_xi g) with (pf_xi f). rewrite !pflget_longer by lia.
  destruct (pflget f 2); [|reflexivity]. cbn [bind]. destruct (pflget f (pf_np f + 2)); [|reflexivity]. cbn [bind]. match goal with |- bind ?m _ = _ => destruct m; [|reflexivity] end. cbn [bind].
  destruct (Z.leb_spec 2 (pf_np f)); [|reflexivity]. rewrite hzns_loop_longer by lia. reflexivity.
Qed.
Lemma zlsq1_loop_longer c : forall ja x a b, (-1 <= ja)%Z -> (ja + Z.of_nat c <= pf_np f)%Z -> zlsq1_loop RA g c ja x a b = zlsq1_loop RA f c ja x a b.
Proof.
  induction c as [|c IH]; intros ja x a b I B; cbn [zlsq1_loop]; [reflexivity|]. cbv zeta. rewrite pflget_longer by lia. destruct (pflget f (ja + 1 + 2)); [|reflexivity]. cbn [bind]. apply IH; lia.
Qed.
Lemma zlsq1_longer (x1 x2 : R) : proper f x1 x2 -> zlsq1 RA g x1 x2 = zlsq1 RA f x1 x2.
Proof.
  intro P. destruct (window_run f x1 x2 W P) as (lo & hi & _ & B & E). destruct (wf_len f W) as (_ & N & _). unfold zlsq1. cbv zeta.
  change (zlsq1_window RA g x1 x2) with (zlsq1_window RA f x1 x2). rewrite E. cbn [bind]. change (pf_np g) with (pf_np f).
  rewrite !pflget_longer by lia. destruct (pflget f (Z.of_nat lo + 2)); [|reflexivity]. cbn [bind]. destruct (pflget f (Z.of_nat hi + 2)); [|reflexivity]. cbn [bind]. rewrite zlsq1_loop_longer by lia. reflexivity.
Qed.
Lemma while_bounds fuel np : forall (xa : num RA) k, (1 <= k <= np)%Z -> (1 <= snd (dlthx_while RA fuel np xa k) <= np)%Z.
Proof.
  induction fuel as [|fuel IH]; intros xa k K; [exact K|]. cbn [dlthx_while]. destruct (Z.ltb_spec k np) as [L|L]; [|rewrite andb_false_r; exact K].
  destruct (_ && true); [apply IH; lia|exact K].
Qed.
Lemma sample_longer k xa : (1 <= k <= pf_np f)%Z -> dlthx_sample RA g k xa = dlthx_sample RA f k xa.
Proof.
  intro K. pose proof W as (N & _ & L). unfold dlthx_sample. cbv zeta.
  assert (M : (k + 2 <=? Z.of_nat (length (pfl_list f)))%Z = true) by (apply Z.leb_le; unfold pfl_list; cbn [length]; lia).
  assert (M' : (k + 2 <=? Z.of_nat (length (pfl_list g)))%Z = true).
  { apply Z.leb_le. unfold pfl_list, g, longer. cbn [pf_z length]. change (num RA) with R in *. rewrite app_length. unfold pfl_list in M. apply Z.leb_le in M. cbn [length] in M. change (num RA) with R in *. lia. }
  rewrite M, M'. rewrite !pflget_longer by lia. reflexivity.
Qed.
Lemma loop_longer c : forall xa xb k, (1 <= k <= pf_np f)%Z -> dlthx_loop RA g c xa xb k = dlthx_loop RA f c xa xb k.
Proof.
  induction c as [|c IH]; intros xa xb k K; cbn [dlthx_loop]; [reflexivity|]. change (pf_np g) with (pf_np f).
  pose proof (while_bounds (Z.to_nat (pf_np f - k)) (pf_np f) xa k K) as B. destruct (dlthx_while RA _ _ xa k) as [xa' k']. cbn [snd] in B.
  rewrite sample_longer by exact B. destruct (dlthx_sample RA f k' xa'); [|reflexivity]. cbn [bind]. rewrite IH by exact B. reflexivity.
Qed.
Lemma dlthx_longer (x1 x2 : R) : 0 <= x1 -> x2 <= path_length f -> dlthx RA g x1 x2 = dlthx RA f x1 x2.
Proof.
  intros H1 H2. pose proof W as (N & X & _). unfold dlthx. cbv zeta. change (pf_xi g) with (pf_xi f). set (xi := pf_xi f : R) in *. change (pf_xi f) with (xi : num RA).
  rewrite !r_div_ok by lra. cbn [bind]. cbn [n_leb n_sub n_Z RA]. destruct (r_leb 2 (x2 / xi - x1 / xi)) eqn:C; [|reflexivity]. rbool.
  match goal with |- bind ?m _ = _ => destruct m; [|reflexivity] end. cbn [bind]. match goal with |- bind ?m _ = _ => destruct m; [|reflexivity] end. cbn [bind].
  assert (A : 0 <= x1 / xi) by (apply Rmult_le_pos; [exact H1|left; apply Rinv_0_lt_compat; exact X]).
  assert (B : x2 / xi <= IZR (pf_np f)).
  { unfold path_length in H2. fold xi in H2. rewrite INR_IZR_INZ in H2. unfold intervals in H2. rewrite Z2Nat.id in H2 by lia. apply Rmult_le_reg_r with (1 := X). unfold Rdiv. rewrite Rmult_assoc, Rinv_l by lra. lra. }
  cbn [n_trunc n_add n_Z RA]. change (num RA) with R in *. rewrite trunc_floor by lra. destruct (floor_nat (x1 / xi + 1) ltac:(lra)) as (k & E & K). rewrite E. cbn [bind].
  assert (K1 : (1 <= k)%nat). { apply INR_le. cbn [INR]. assert (1 < INR k + 1) by lra. replace 1 with (INR 1) in H by reflexivity. rewrite <- plus_INR in H. apply INR_lt in H. apply le_INR in H. rewrite plus_INR in H. cbn [INR] in H. apply (le_INR 1). apply INR_lt. cbn [INR]. lra. }
  assert (K2 : (Z.of_nat k <= pf_np f)%Z) by (apply le_IZR; rewrite <- INR_IZR_INZ; lra).
  rewrite loop_longer by lia. reflexivity.
Qed.
End Longer.

(** q differs from p only in that its profile goes on after the last sample. *)
Definition lengthened (f : profile RA) (e : list R) (p q : prop RA) : Prop := turned_by 0 [] p q /\ ppfl p = Some f /\ ppfl q = Some (longer f e).
Lemma geom_longer p q f v e : path_entries p f v -> lengthened f e p q ->
  exists p' q', qlrpfl_geom RA p = Ok p' /\ qlrpfl_geom RA q = Ok q' /\ turned_by 0 [] p' q'.
Proof.
  intros P (SE & Pp & Pq). pose proof P as (_ & W & V & H0 & H1 & G). pose proof (len_pos f W) as DP. pose proof (wf_len f W) as (_ & N & N1).
  assert (V' : forall k, In k [HG0; HG1; GME] -> pn q k = Some (v k)). { intros k K. rewrite (tb_n _ _ _ _ SE); [apply V; exact K | |]; intros ->; cbn in K; intuition discriminate. }
  destruct (hzns_spec f (v HG0) (v HG1) (v GME) W) as (t0 & t1 & d0 & d1 & Eh & I0 & I1 & L0 & L1 & _).
  assert (D0 : 0 < d0 <= path_length f) by (eapply sights_dist; [exact W | exact I0]).
  assert (D1 : 0 < d1 <= path_length f) by (change (path_length f) with (path_length (reverse_profile f)); eapply sights_dist; [apply wf_rev; exact W | exact I1]).
  assert (X0 : 0 < setback (v HG0) d0 <= d0 / 10) by (split; [apply Rmin_glb_lt; lra | apply Rmin_r]). assert (X1 : 0 < setback (v HG1) d1 <= d1 / 10) by (split; [apply Rmin_glb_lt; lra | apply Rmin_r]).
  pose proof (hzns_longer f e W (path_length f) (v HG0) (v HG1) (v GME)) as Fh. cbn [num RA] in Eh, Fh. rewrite Eh in Fh.
  destruct (dlthx_total f (setback (v HG0) d0) (path_length f - setback (v HG1) d1) W ltac:(lra) ltac:(lra)) as (dh & Ed & Dh).
  pose proof (dlthx_longer f e W (setback (v HG0) d0) (path_length f - setback (v HG1) d1) ltac:(lra) ltac:(lra)) as Fd. cbn [num RA] in Ed, Fd. rewrite Ed in Fd.
  unfold qlrpfl_geom. unfold getpfl. rewrite Pp, Pq. cbn [opt_res bind]. cbn [n_mul n_Z RA]. change (num RA) with R.
  change (pf_np (longer f e)) with (pf_np f). change (pf_xi (longer f e)) with (pf_xi f). rewrite path_length_Z by exact W. cbv zeta.
  dsimp. unfold getn. rewrite (V HG0), (V HG1), (V GME), (V' HG0), (V' HG1), (V' GME) by (cbn; tauto). cbn [opt_res]. cbn [bind]. cbn [num RA] in Eh, Fh |- *. rewrite Eh, Fh. cbn [bind]. rewrite !pymin_R. cbn [n_mul n_lit n_sub n_add n_leb RA].
  replace (1 / 10 * d0) with (d0 / 10) by lra. replace (1 / 10 * d1) with (d1 / 10) by lra. fold (setback (v HG0) d0) (setback (v HG1) d1). cbn [num RA] in Ed, Fd |- *. rewrite Ed, Fd. cbn [bind].
  destruct (r_leb (15 / 10 * path_length f) (d0 + d1)) eqn:B; rbool.
  - assert (T : qlrpfl_los RA (longer f e) (path_length f) (v HG0) (v HG1) (v GME) dh (setback (v HG0) d0) (path_length f - setback (v HG1) d1)%R
      = qlrpfl_los RA f (path_length f) (v HG0) (v HG1) (v GME) dh (setback (v HG0) d0) (path_length f - setback (v HG1) d1)%R).
    { unfold qlrpfl_los. cbv zeta. change (pf_np (longer f e)) with (pf_np f). rewrite zlsq1_longer; [|exact W | unfold proper; lra]. rewrite !pflget_longer by (exact W || lia). reflexivity. }
    cbn [num RA] in T |- *. rewrite T.
    destruct (los_run f (v HG0) (v HG1) (v GME) dh (setback (v HG0) d0) (path_length f - setback (v HG1) d1) W H0 H1 G Dh) as (za & zb & s & _ & _ & El & _); [unfold proper; lra|].
    cbv zeta in El. cbn [num RA] in El |- *. rewrite El. cbn [bind]. do 2 eexists. split; [reflexivity|]. split; [reflexivity|].
    destruct SE as [A _ _ Z Bo K]. constructor; cbn [pn pz pb setn setz nkey_eqb]; auto; [|cbn; f_equal; symmetry; first [apply Rplus_0_r | apply Rminus_0_r]..].
    intros k K0 K1. rewrite (A k K0 K1). reflexivity.
  - assert (T : qlrpfl_obs RA (longer f e) (path_length f) (v HG0) (v HG1) d0 d1 (setback (v HG0) d0) (path_length f - setback (v HG1) d1)%R
      = qlrpfl_obs RA f (path_length f) (v HG0) (v HG1) d0 d1 (setback (v HG0) d0) (path_length f - setback (v HG1) d1)%R).
    { unfold qlrpfl_obs. cbv zeta. change (pf_np (longer f e)) with (pf_np f). cbn [n_mul n_lit n_sub RA]. change (num RA) with R.
      rewrite !zlsq1_longer by (exact W || (unfold proper; lra)). rewrite !pflget_longer by (exact W || lia). reflexivity. }
    cbn [num RA] in T |- *. rewrite T.
    destruct (obs_run f (v HG0) (v HG1) d0 d1 W H0 H1 D0 D1) as (za & za' & zb' & zb & _ & _ & Eo). cbv zeta in Eo. cbn [num RA] in Eo |- *. rewrite Eo. cbn [bind].
    do 2 eexists. split; [reflexivity|]. split; [reflexivity|].
    destruct SE as [A _ _ Z Bo K]. constructor; cbn [pn pz pb setn setz nkey_eqb]; auto; [|cbn; f_equal; symmetry; first [apply Rplus_0_r | apply Rminus_0_r]..].
    intros k K0 K1. rewrite (A k K0 K1). reflexivity.
Qed.

Lemma qlrpfl_longer p q f v e : path_entries p f v -> lengthened f e p q -> same_outcome (lengthened f e) (qlrpfl RA p) (qlrpfl RA q).
Proof.
  intros P L. destruct (geom_longer p q f v e P L) as (p1 & q1 & E1 & F1 & N1). destruct L as (_ & Pp & Pq).
  apply so_and with (P := turned_by 0 []).
  - unfold qlrpfl. rewrite E1, F1. cbn [bind]. eapply so_bind; [apply nr_control; [exact N1 | reflexivity..]|]. intros p2 q2 N2. apply nr_lrprop; [exact N2 | reflexivity|].
    right. apply (steep_zero []). exact N2.
  - intros p' q' Ep Eq N. split; [exact N|]. apply qlrpfl_frame in Ep. apply qlrpfl_frame in Eq. destruct Ep as (_ & _ & _ & Fp), Eq as (_ & _ & _ & Fq). split; congruence.
Qed.
Lemma pimter_loop_longer f e (fm ZR ZC : num RA) (g h0 : R) l : well_formed f -> 0 < g -> 0 < h0 -> (forall h : R, In h l -> 0 < h) ->
  forall p q, lengthened f e p q -> pn p GME = Some g -> pn p HG0 = Some h0 -> pimter_loop RA fm ZR ZC l q = pimter_loop RA fm ZR ZC l p.
Proof.
  intros W G0 H0. induction l as [|h l IH]; intros HL p q N Ge He; cbn [pimter_loop]; [reflexivity|]. cbv zeta.
  set (p0 := setz (setz (setz (setz (setn p HG1 h) LVAR 5) KWX 0) KLIMX 0) MDVARX 11). set (q0 := setz (setz (setz (setz (setn q HG1 h) LVAR 5) KWX 0) KLIMX 0) MDVARX 11).
  assert (N0 : lengthened f e p0 q0). { destruct N as (N & A & B). split; [|split; [exact A | exact B]]. unfold p0, q0. repeat apply nr_setz. apply nr_setn; [exact N | reflexivity]. }
  set (v := fun k => match k with HG0 => h0 | HG1 => h | _ => g end).
  assert (P0 : path_entries p0 f v).
  { split; [exact (proj1 (proj2 N))|]. split; [exact W|]. split; [|cbn; split; [exact H0|split; [apply HL; left; reflexivity | exact G0]]]. intros k [<-|[<-|[<-|[]]]]; [exact He | reflexivity | exact Ge]. }
  pose proof (qlrpfl_longer p0 q0 f v e P0 N0) as T.
  destruct (qlrpfl RA p0) as [p1|] eqn:E1, (qlrpfl RA q0) as [q1|]; cbn [same_outcome] in T; try contradiction; [|subst; reflexivity]. cbn [bind]. destruct T as (T & Tp & Tq).
  rewrite (nr_getn _ _ p1 q1 WN T), (nr_getn _ _ p1 q1 DIST T) by reflexivity. do 3 match goal with |- bind ?m _ = _ => destruct m; [|reflexivity]; cbn [bind] end.
  match goal with |- context [avar RA ?x ?y ?z p1] => assert (V := nr_avar _ [] x y z p1 q1 T eq_refl eq_refl eq_refl eq_refl); pose proof (avar_frame RA x y z p1) as Fp; pose proof (avar_frame RA x y z q1) as Fq;
    destruct (avar RA x y z p1) as [[l1 p2]|], (avar RA x y z q1) as [[l2 q2]|] end; cbn [same_outcome] in V; try contradiction; [|subst; reflexivity]. destruct V as [V1 V2]. cbn [fst snd] in V1, V2. subst l2.
  specialize (Fp _ eq_refl). specialize (Fq _ eq_refl). cbn [snd] in Fp, Fq. cbn [bind].
  apply qlrpfl_frame in E1.
  rewrite IH with (p := p2).
  - reflexivity.
  - intros x I. apply HL. right. exact I.
  - split; [exact V2|]. destruct Fp as (_ & _ & _ & Fp), Fq as (_ & _ & _ & Fq). split; congruence.
  - rewrite (proj1 Fp) by (cbn; intuition discriminate). rewrite (proj1 E1) by (cbn; intuition discriminate). exact Ge.
  - rewrite (proj1 Fp) by (cbn; intuition discriminate). rewrite (proj1 E1) by (cbn; intuition discriminate). exact He.
Qed.
Lemma surplus (z extra dist : list R) : length z = length dist -> (2 <= length dist)%nat -> nth 0 dist 0 < nth 1 dist 0 ->
  run_itmlogic RA (z ++ extra) dist = run_itmlogic RA z dist.
Proof.
  intros L L2 D. destruct (nth_error dist 0) as [d0|] eqn:E0; [|apply nth_error_None in E0; lia]. destruct (nth_error dist 1) as [d1|] eqn:E1; [|apply nth_error_None in E1; lia].
  rewrite (nth_error_nth dist 0 0 E0), (nth_error_nth dist 1 0 E1) in D.
  unfold run_itmlogic. destruct (pimter_dev RA); [|reflexivity]. cbn [bind].
  unfold pimter_prepare. cbv zeta. unfold script_gme. cbv zeta. runfold. rewrite r_div_ok by lra. cbn [bind]. dsimp.
  change (num RA) with R in *. rewrite (pyget_at dist 1 d1 E1 : pyget dist 1 = _), (pyget_at dist 0 d0 E0 : pyget dist 0 = _). cbn [bind].
  destruct (pyget dist (-1)); [|reflexivity]. cbn [bind]. rewrite !r_div_ok by lra. cbn [bind].
  destruct (p2p_zgnd RA _ _ _ _) as [[zr zi]|]; [|reflexivity]. cbn [bind].
  set (f := @Profile RA (Z.of_nat (length dist) - 1) (d1 - d0)%R z).
  assert (W : well_formed f). { unfold well_formed, f. cbn [pf_np pf_xi pf_z]. change (num RA) with R. split; [lia|]. split; [lra | lia]. }
  eapply (pimter_loop_longer f extra _ _ _ script_curvature 2.56); [exact W | exact curvature_pos | lra | | | |].
  - intros h I. apply in_map_iff in I as (k & <- & I). apply in_seq in I. cbn [n_Z RA]. apply IZR_lt. lia.
  - split; [|split; reflexivity]. apply same_near. repeat split; reflexivity.
  - transitivity (Some (157 / 1000000000 * (1 - 4665 / 100000 * exp (314 / (1793 / 10))))); [reflexivity|]. unfold script_curvature. f_equal.
    replace (314 / (1793 / 10)) with (314 / 179.3) by lra. lra.
  - transitivity (Some (256 / 100)); [reflexivity|]. f_equal; try lra.
Qed.

(** ** Fewer heights than distances *)
Lemma missing (z dist : list R) : (2 <= length dist)%nat -> (length z < length dist)%nat -> run_itmlogic RA z dist = Err IndexError.
Proof.
  intros L2 L. destruct (pimter_prepared dist z L2) as (p & w & EP & LR & _). unfold run_itmlogic. rewrite pimter_dev_value. cbn [bind]. change (num RA) with R in *. rewrite EP. cbn [bind].
  unfold pimter_txht. change (seq 10 121) with (10%nat :: seq 11 120). cbn [map pimter_loop]. cbv zeta. destruct LR as (F & V & _).
  set (f := walked_path dist z) in *. set (q0 := setz _ MDVARX 11).
  assert (Q : qlrpfl RA q0 = Err IndexError); [|rewrite Q; reflexivity].
  assert (Gq : getpfl q0 = Ok f) by (unfold getpfl, q0; cbn [ppfl setz setn]; rewrite F; reflexivity).
  assert (G0 : getn q0 HG0 = Ok (w HG0)) by (unfold getn, q0; cbn [pn setz setn nkey_eqb]; rewrite (V HG0) by (cbn; tauto); reflexivity).
  assert (G2 : getn q0 GME = Ok (w GME)) by (unfold getn, q0; cbn [pn setz setn nkey_eqb]; rewrite (V GME) by (cbn; tauto); reflexivity).
  assert (G1 : exists h, getn q0 HG1 = Ok h) by (eexists; reflexivity). destruct G1 as [h G1].
  unfold qlrpfl, qlrpfl_geom. rewrite Gq. cbn [bind]. cbv zeta. clearbody q0. dsimp. rewrite G0, G1, G2. cbn [bind]. unfold hzns. cbv zeta.
  destruct (pflget f 2) as [x|e1] eqn:E; [|apply pyget_err in E; subst; reflexivity]. cbn [bind].
  destruct (pflget f (pf_np f + 2)) as [y|e1] eqn:E'; [|apply pyget_err in E'; subst; reflexivity]. exfalso.
  assert (B : exists y, pyget (pfl_list f) (pf_np f + 2) = Ok y) by (exists y; exact E'). apply pyget_iff in B. unfold pfl_list, f, walked_path in B. cbn [pf_np pf_xi pf_z length] in B. change (num RA) with R in B. lia.
Qed.

(** ** The call from another module *)
Lemma unknown_name (s d : list R) : (2 <= length d)%nat -> run_itmlogic_call RA None s d = inr NameError.
Proof.
  intro L2. unfold run_itmlogic_call. rewrite pimter_dev_value. cbn [bind]. unfold script_gme. cbv zeta. runfold. rewrite r_div_ok by lra. cbn [bind]. dsimp.
  destruct (nth_error d 0) as [d0|] eqn:E0; [|apply nth_error_None in E0; lia]. destruct (nth_error d 1) as [d1|] eqn:E1; [|apply nth_error_None in E1; lia].
  change (num RA) with R in *. rewrite (pyget_at d 1 d1 E1 : pyget d 1 = _), (pyget_at d 0 d0 E0 : pyget d 0 = _). reflexivity.
Qed.
