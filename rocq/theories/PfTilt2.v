(** Horizons, terrain fits and effective heights over terrain with a straight line added. *)
From Coq Require Import Lra Lia.
From Verif Require Import RTac Frame SpecTilt Prep PfRegime PfHzns PfLsq PfDlthx PfPfl PfAvarReal PfTilt.
Open Scope R_scope.

(** ** The scan for the horizons *)
Section Scan.
Context (f : profile RA) (W : well_formed f) (a b gme hg0 hg1 : R).
Let xi : R := pf_xi f.
Let n := intervals f.
Let D := path_length f.
Let u := b / xi.
Definition after (j : nat) (s s' : hz RA) : Prop :=
  (hz_sa _ s : R) = INR j * xi /\ (hz_sb _ s : R) = D - INR j * xi /\ hz_sa _ s' = hz_sa _ s /\ hz_sb _ s' = hz_sb _ s /\
  (hz_the0 _ s' : R) = (hz_the0 _ s : R) + u /\ (hz_the1 _ s' : R) = (hz_the1 _ s : R) - u /\
  hz_dl0 _ s' = hz_dl0 _ s /\ hz_dl1 _ s' = hz_dl1 _ s /\ hz_wq _ s' = hz_wq _ s.
Let za := ground f 0 + hg0.
Let zb := ground f n + hg1.
Let za' := za + a.
Let zb' := zb + (a + b * INR n).
Lemma xi_pos : 0 < xi.
Proof. destruct W as (_ & X & _). exact X. Qed.
Lemma step_turn j s s' qc : (1 <= j < n)%nat -> after (j - 1) s s' ->
  same_outcome (after j) (hzns_step RA xi za zb qc s (ground f j)) (hzns_step RA xi za' zb' qc s' (ground f j + (a + b * INR j))%R).
Proof.
  intros J (Sa & Sb & Sa' & Sb' & T0 & T1 & D0 & D1 & Wq). pose proof xi_pos as X.
  assert (Ij : INR (j - 1) + 1 = INR j) by (rewrite <- S_INR; f_equal; lia).
  destruct s as [t0 t1 d0 d1 sa sb wq], s' as [t0' t1' d0' d1' sa' sb' wq']. unfold after, hzns_step. cbn [hz_the0 hz_the1 hz_dl0 hz_dl1 hz_sa hz_sb hz_wq] in *. subst sa' sb' d0' d1' wq'.
  cbn [n_add n_sub n_mul n_ltb n_div n_Z RA]. change (num RA) with R in *. subst t0' t1'.
  assert (Ea : sa + xi = INR j * xi) by (rewrite Sa, <- Ij; ring). assert (Eb : sb - xi = D - INR j * xi) by (rewrite Sb, <- Ij; ring). rewrite Ea, Eb.
  assert (KA : ground f j + (a + b * INR j) - (qc * (INR j * xi) + (t0 + u)) * (INR j * xi) - za' = ground f j - (qc * (INR j * xi) + t0) * (INR j * xi) - za).
  { unfold za', u. field. lra. }
  assert (KB : ground f j + (a + b * INR j) - (qc * (D - INR j * xi) + (t1 - u)) * (D - INR j * xi) - zb' = ground f j - (qc * (D - INR j * xi) + t1) * (D - INR j * xi) - zb).
  { unfold zb', u, D, path_length. fold n xi. field. lra. }
  rewrite KA, KB. clear KA KB.
  set (qa := ground f j - (qc * (INR j * xi) + t0) * (INR j * xi) - za). set (qb := ground f j - (qc * (D - INR j * xi) + t1) * (D - INR j * xi) - zb).
  set (la := INR j * xi) in *. set (lb := D - la) in *.
  eapply so_bind with (P := fun x y : R * R * bool => fst (fst y) = fst (fst x) + u /\ snd (fst y) = snd (fst x) /\ snd y = snd x).
  { destruct (r_ltb 0 qa); [|cbn; auto]. destruct (r_div qa la); cbn; [split; [ring | auto] | reflexivity]. }
  intros [[x0 y0] w] [[x0' y0'] w'] (E0 & E1 & E2). cbn [fst snd] in *. subst x0' y0' w'.
  eapply so_bind with (P := fun x y : R * R => fst y = fst x - u /\ snd y = snd x).
  { destruct (negb w); [|cbn; auto]. destruct (r_ltb 0 qb); [|cbn; auto]. destruct (r_div qb lb); cbn; [split; [ring | auto] | reflexivity]. }
  intros [x1 y1] [x1' y1'] (E0 & E1). cbn [fst snd] in *. subst x1' y1'. cbn. auto 10.
Qed.
Lemma loop_turn c qc : forall j s s', (1 <= j)%nat -> (j + c <= n)%nat -> after (j - 1) s s' ->
  same_outcome (after (j + c - 1)) (hzns_loop RA f xi za zb qc c (Z.of_nat j + 2) s) (hzns_loop RA (add_line f a b) xi za' zb' qc c (Z.of_nat j + 2) s').
Proof.
  induction c as [|c IH]; intros j s s' J1 Jn A; cbn [hzns_loop].
  - rewrite Nat.add_0_r. exact A.
  - destruct (wf_len f W) as (L & _ & _). destruct (wf_len _ (add_line_wf f a b W)) as (L' & _ & _). change (intervals (add_line f a b)) with n in L'.
    rewrite pfl_height by (rewrite L; fold n; lia). rewrite pfl_height by (rewrite L'; lia). cbn [bind]. rewrite add_line_ground by (rewrite L; fold n; lia).
    eapply so_bind; [apply (step_turn j s s' qc); [lia | exact A]|]. intros s1 s1' A1.
    replace (Z.of_nat j + 2 + 1)%Z with (Z.of_nat (S j) + 2)%Z by lia. replace (j + S c - 1)%nat with (S j + c - 1)%nat by lia.
    apply IH; [lia | lia|]. replace (S j - 1)%nat with j by lia. exact A1.
Qed.
End Scan.
Definition turned_sights (u : R) (x y : num RA * num RA * num RA * num RA) : Prop :=
  match x, y with (t0, t1, d0, d1), (t0', t1', d0', d1') => (t0' : R) = (t0 : R) + u /\ (t1' : R) = (t1 : R) - u /\ d0' = d0 /\ d1' = d1 end.
Lemma hzns_turn f a b (hg0 hg1 gme : R) : well_formed f ->
  same_outcome (turned_sights (b / (pf_xi f : R))) (hzns RA f (path_length f) hg0 hg1 gme) (hzns RA (add_line f a b) (path_length f) hg0 hg1 gme).
Proof.
  intro W. pose proof W as (_ & X & _). change (num RA) with R in X. destruct (wf_len f W) as (L & N & N1). destruct (wf_len _ (add_line_wf f a b W)) as (L' & N' & _). change (intervals (add_line f a b)) with (intervals f) in *.
  pose proof (len_pos f W) as DP. unfold hzns. change (pf_np (add_line f a b)) with (pf_np f). change (pf_xi (add_line f a b)) with (pf_xi f). rewrite <- N.
  rewrite (pfl_height f 0 ltac:(lia) : pflget f 2 = _), (pfl_height f (intervals f) ltac:(lia)).
  rewrite (pfl_height (add_line f a b) 0 ltac:(lia) : pflget (add_line f a b) 2 = _), (pfl_height (add_line f a b) (intervals f) ltac:(lia)).
  cbn [bind]. rewrite !add_line_ground by lia. cbn [n_add n_sub n_mul n_div n_opp RA]. change (num RA) with R. rewrite !r_div_ok by lra. cbn [bind].
  set (za := ground f 0 + hg0). set (zb := ground f (intervals f) + hg1).
  replace (ground f 0 + (a + b * INR 0) + hg0) with (za + a) by (unfold za; cbn; ring).
  replace (ground f (intervals f) + (a + b * INR (intervals f)) + hg1) with (zb + (a + b * INR (intervals f))) by (unfold zb; ring).
  assert (E : (zb + (a + b * INR (intervals f)) - (za + a)) / path_length f = (zb - za) / path_length f + b / (pf_xi f : R)).
  { unfold path_length. field. split; [lra|]. apply not_0_INR. lia. }
  rewrite E. clear E. destruct (2 <=? Z.of_nat (intervals f))%Z eqn:B.
  - eapply so_bind.
    + replace 3%Z with (Z.of_nat 1 + 2)%Z by lia. apply (loop_turn f W a b hg0 hg1); [lia | lia |].
      unfold after. cbn [hz_the0 hz_the1 hz_dl0 hz_dl1 hz_sa hz_sb hz_wq n_Z RA INR Nat.sub]. change (num RA) with R. repeat split; ring.
    + intros s s' (_ & _ & _ & _ & T0 & T1 & D0 & D1 & _). cbn. auto.
  - cbn. repeat split; ring.
Qed.

(** ** Effective heights *)
Lemma trend_shift (h e z c : R) : above_trend h (e + c) (z + c) = above_trend h e z.
Proof. unfold above_trend. f_equal. f_equal. ring. Qed.
Lemma obs_turn f a b (hg0 hg1 d0 d1 : R) : well_formed f -> 0 < hg0 -> 0 < hg1 -> 0 < d0 <= path_length f -> 0 < d1 <= path_length f ->
  let x0 := setback hg0 d0 in let x1 := path_length f - setback hg1 d1 in
  qlrpfl_obs RA (add_line f a b) (path_length f) hg0 hg1 d0 d1 x0 x1 = qlrpfl_obs RA f (path_length f) hg0 hg1 d0 d1 x0 x1.
Proof.
  intros W H0 H1 D0 D1. cbv zeta. destruct (wf_len f W) as (L & N & N1).
  assert (X0 : setback hg0 d0 <= d0 / 10) by apply Rmin_r. assert (X1 : setback hg1 d1 <= d1 / 10) by apply Rmin_r.
  assert (Y0 : 0 < setback hg0 d0) by (apply Rmin_glb_lt; lra). assert (Y1 : 0 < setback hg1 d1) by (apply Rmin_glb_lt; lra).
  destruct (obs_run f hg0 hg1 d0 d1 W H0 H1 D0 D1) as (za & za' & zb' & zb & Ea & Eb & ->).
  destruct (obs_run (add_line f a b) hg0 hg1 d0 d1 (add_line_wf f a b W) H0 H1 D0 D1) as (ya & ya' & yb' & yb & Fa & Fb & F).
  change (path_length (add_line f a b)) with (path_length f) in *. change (intervals (add_line f a b)) with (intervals f) in *. rewrite F.
  apply (zlsq1_add_line f _ _ a b) in Ea; [|exact W | unfold proper; lra]. apply (zlsq1_add_line f _ _ a b) in Eb; [|exact W | unfold proper; lra].
  rewrite Ea in Fa. rewrite Eb in Fb. apply ok_inj in Fa, Fb. injection Fa as -> ->. injection Fb as -> ->.
  rewrite !add_line_ground by lia. replace (a + b * INR 0) with a by (cbn; ring). rewrite !trend_shift. reflexivity.
Qed.
Lemma los_turn f a (hg0 hg1 gme dh x0 x1 : R) : well_formed f -> 0 < hg0 -> 0 < hg1 -> 0 < gme -> 0 <= dh -> proper f x0 x1 ->
  qlrpfl_los RA (add_line f a 0) (path_length f) hg0 hg1 gme dh x0 x1 = qlrpfl_los RA f (path_length f) hg0 hg1 gme dh x0 x1.
Proof.
  intros W H0 H1 G D P. destruct (wf_len f W) as (L & N & N1). destruct (wf_len _ (add_line_wf f a 0 W)) as (L' & N' & _). change (intervals (add_line f a 0)) with (intervals f) in *.
  destruct (zlsq1_spec f x0 x1 W P) as (lo & hi & c & d & _ & _ & _ & E). pose proof (zlsq1_add_line f x0 x1 a 0 _ _ W P E) as E'.
  unfold qlrpfl_los. rewrite E, E'. cbn [bind]. change (pf_np (add_line f a 0)) with (pf_np f). rewrite <- N.
  rewrite (pfl_height f 0 ltac:(lia) : pflget f 2 = _), (pfl_height (add_line f a 0) 0 ltac:(lia) : pflget (add_line f a 0) 2 = _).
  cbn [bind]. replace (Z.of_nat (intervals f) + 1)%Z with (Z.of_nat (intervals f - 1) + 2)%Z by lia. rewrite !pfl_height by lia. cbn [bind]. rewrite !add_line_ground by lia.
  replace (a + 0 * INR (intervals f)) with a by ring. replace (a + 0 * INR 0) with a by ring. replace (a + 0 * INR (intervals f - 1)) with a by ring.
  rewrite !pymax_R. cbn [n_add n_sub n_Z RA]. repeat match goal with |- context [?x + a - (?y + a)] => replace (x + a - (y + a)) with (x - y) by ring end. reflexivity.
Qed.

(** ** The geometry stage of qlrpfl *)
(** q has the entries of p up to angles turned by s and integers of X; its profile has the line a + b*k added. *)
Definition lined (s : R) (X : list zkey) (a b : R) (f : profile RA) (p q : prop RA) : Prop := turned_by s X p q /\ ppfl p = Some f /\ ppfl q = Some (add_line f a b).
Lemma same_near X p q : same_entries p q -> turned_by 0 X p q.
Proof.
  intros (N & Z & B). constructor; intros; auto; [| |rewrite Z; tauto]; rewrite N; [destruct (pn p THE0) | destruct (pn p THE1)]; cbn; try reflexivity; f_equal; symmetry; [apply Rplus_0_r | apply Rminus_0_r].
Qed.
Lemma near_same p q : turned_by 0 [] p q -> same_entries p q.
Proof.
  intros [N T0 T1 Z B _]. repeat split; auto. intro k. destruct (memn k [THE0; THE1]) eqn:E.
  - destruct k; try discriminate E; [rewrite T0 | rewrite T1]; [destruct (pn p THE0) | destruct (pn p THE1)]; cbn; try reflexivity; f_equal; [apply Rplus_0_r | apply Rminus_0_r].
  - apply N; intros ->; discriminate E.
Qed.
Lemma geom_turn s0 p q f v a b X : path_entries p f v -> lined s0 X a b f p q -> (b = 0 \/ obstructed f (v HG0) (v HG1) (v GME)) ->
  (exists p' q', qlrpfl_geom RA p = Ok p' /\ qlrpfl_geom RA q = Ok q' /\ turned_by (b / (pf_xi f : R)) X p' q').
Proof.
  intros P (SE & Pp & Pq) C. pose proof P as (_ & W & V & H0 & H1 & G). pose proof (len_pos f W) as DP. pose proof (add_line_wf f a b W) as W'.
  assert (V' : forall k, In k [HG0; HG1; GME] -> pn q k = Some (v k)). { intros k K. rewrite (tb_n _ _ _ _ SE); [apply V; exact K | |]; intros ->; cbn in K; intuition discriminate. }
  destruct (hzns_spec f (v HG0) (v HG1) (v GME) W) as (t0 & t1 & d0 & d1 & Eh & I0 & I1 & L0 & L1 & _).
  assert (D0 : 0 < d0 <= path_length f) by (eapply sights_dist; [exact W | exact I0]).
  assert (D1 : 0 < d1 <= path_length f) by (change (path_length f) with (path_length (reverse_profile f)); eapply sights_dist; [apply wf_rev; exact W | exact I1]).
  assert (X0 : 0 < setback (v HG0) d0 <= d0 / 10) by (split; [apply Rmin_glb_lt; lra | apply Rmin_r]). assert (X1 : 0 < setback (v HG1) d1 <= d1 / 10) by (split; [apply Rmin_glb_lt; lra | apply Rmin_r]).
  assert (Fh : hzns RA (add_line f a b) (path_length f) (v HG0) (v HG1) (v GME) = Ok ((t0 + b / (pf_xi f : R))%R, (t1 - b / (pf_xi f : R))%R, d0, d1)).
  { pose proof (hzns_turn f a b (v HG0) (v HG1) (v GME) W) as T. rewrite Eh in T. destruct (hzns RA (add_line f a b) _ _ _ _) as [[[[t0' t1'] d0'] d1']|]; [|contradiction]. destruct T as (-> & -> & -> & ->). reflexivity. }
  destruct (dlthx_total f (setback (v HG0) d0) (path_length f - setback (v HG1) d1) W ltac:(lra) ltac:(lra)) as (dh & Ed & Dh).
  pose proof (dlthx_add_line f a b (setback (v HG0) d0) (path_length f - setback (v HG1) d1) W ltac:(lra) ltac:(lra)) as Fd. cbn [num RA] in Ed, Fd. rewrite Ed in Fd.
  unfold qlrpfl_geom. unfold getpfl. rewrite Pp, Pq. cbn [opt_res bind]. cbn [n_mul n_Z RA]. change (num RA) with R.
  change (pf_np (add_line f a b)) with (pf_np f). change (pf_xi (add_line f a b)) with (pf_xi f). rewrite path_length_Z by exact W. cbv zeta.
  dsimp. unfold getn. rewrite (V HG0), (V HG1), (V GME), (V' HG0), (V' HG1), (V' GME) by (cbn; tauto). cbn [opt_res]. cbn [bind]. cbn [num RA] in Eh, Fh |- *. rewrite Eh, Fh. cbn [bind]. rewrite !pymin_R. cbn [n_mul n_lit n_sub n_add n_leb RA].
  replace (1 / 10 * d0) with (d0 / 10) by lra. replace (1 / 10 * d1) with (d1 / 10) by lra. fold (setback (v HG0) d0) (setback (v HG1) d1). cbn [num RA] in Ed, Fd |- *. rewrite Ed, Fd. cbn [bind].
  destruct (r_leb (15 / 10 * path_length f) (d0 + d1)) eqn:B; rbool.
  - assert (b = 0) as -> . { destruct C as [C|C]; [exact C|]. exfalso. specialize (C t0 t1 d0 d1). assert (d0 + d1 < 3 / 2 * path_length f) by (apply C; [split; eauto | split; eauto | assumption..]). lra. }
    pose proof (los_turn f a (v HG0) (v HG1) (v GME) dh (setback (v HG0) d0) (path_length f - setback (v HG1) d1) W H0 H1 G Dh ltac:(unfold proper; lra)) as T. cbn [num RA] in T |- *. rewrite T.
    destruct (los_run f (v HG0) (v HG1) (v GME) dh (setback (v HG0) d0) (path_length f - setback (v HG1) d1) W H0 H1 G Dh) as (za & zb & s & _ & _ & El & _); [unfold proper; lra|].
    cbv zeta in El. cbn [num RA] in El |- *. rewrite El. cbn [bind]. do 2 eexists. split; [reflexivity|]. split; [reflexivity|]. replace (0 / pf_xi f) with 0 by (unfold Rdiv; ring).
    destruct SE as [N _ _ Z Bo K]. constructor; cbn [pn pz pb setn setz nkey_eqb]; auto; [|cbn; f_equal; symmetry; first [apply Rplus_0_r | apply Rminus_0_r]..].
    intros k K0 K1. rewrite (N k K0 K1). reflexivity.
  - pose proof (obs_turn f a b (v HG0) (v HG1) d0 d1 W H0 H1 D0 D1) as T. cbv zeta in T. cbn [num RA] in T |- *. rewrite T.
    destruct (obs_run f (v HG0) (v HG1) d0 d1 W H0 H1 D0 D1) as (za & za' & zb' & zb & _ & _ & Eo). cbv zeta in Eo. cbn [num RA] in Eo |- *. rewrite Eo. cbn [bind].
    do 2 eexists. split; [reflexivity|]. split; [reflexivity|]. destruct SE as [N _ _ Z Bo K]. constructor; cbn [pn pz pb setn setz nkey_eqb]; auto. intros k K0 K1. rewrite (N k K0 K1).
    destruct k; cbn [nkey_eqb]; try reflexivity; exfalso; auto.
Qed.
