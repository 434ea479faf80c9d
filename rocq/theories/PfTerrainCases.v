(** Concrete profiles, and the shape of the results used by the property theorems on horizons. *)
From Verif Require Import RTac Prep SpecTerrain PfHzns PfLsq PfDlthx.
Open Scope R_scope.
Lemma hzns_angles (f : profile RA) (hg0 hg1 gme : R) : well_formed f ->
  exists t0 t1 d0 d1 : R, hzns RA f (path_length f) hg0 hg1 gme = Ok (t0, t1, d0, d1) /\
    largest_angle (sights0 f hg0 hg1 gme) t0 /\ largest_angle (sights1 f hg0 hg1 gme) t1 /\
    (unobstructed f hg0 hg1 gme -> d0 = path_length f /\ d1 = path_length f).
Proof.
  intro W. destruct (hzns_spec f hg0 hg1 gme W) as (t0 & t1 & d0 & d1 & E & A0 & A1 & B0 & B1 & U). exists t0, t1, d0, d1.
  split; [exact E|]. split; [split; [exists d0; exact A0 | exact B0]|]. split; [split; [exists d1; exact A1 | exact B1] | exact U].
Qed.
Lemma hzns_distances (f : profile RA) (hg0 hg1 gme t0 t1 d0 d1 : R) : well_formed f ->
  hzns RA f (path_length f) hg0 hg1 gme = Ok (t0, t1, d0, d1) ->
  In (d0, t0) (sights0 f hg0 hg1 gme) /\ In (d1, t1) (sights1 f hg0 hg1 gme) /\
  0 < d0 <= path_length f /\ 0 < d1 <= path_length f.
Proof.
  intros W H. destruct (hzns_spec f hg0 hg1 gme W) as (u0 & u1 & e0 & e1 & E & A0 & A1 & _). rewrite H in E. injection E as <- <- <- <-.
  split; [exact A0|]. split; [exact A1|]. split; [eapply sights_dist; [exact W | exact A0]|]. change (path_length f) with (path_length (reverse_profile f)).
  eapply sights_dist; [apply wf_rev; exact W | exact A1].
Qed.
(** Four intervals of 100 m. *)
Definition hill : profile RA := @Profile RA 4 100 [10; 20; 50; 15; 10].
Definition valley : profile RA := @Profile RA 4 100 [10; 5; 0; 5; 10].
Lemma hill_wf : well_formed hill.
Proof. unfold well_formed, hill. cbn. repeat split; try lia. change (num RA) with R. lra. Qed.
Lemma valley_wf : well_formed valley.
Proof. unfold well_formed, valley. cbn. repeat split; try lia. change (num RA) with R. lra. Qed.
Lemma hill_length : path_length hill = 400.
Proof. unfold path_length, intervals, hill. cbn [pf_np pf_xi]. change (Z.to_nat 4) with 4%nat. cbn [INR]. lra. Qed.
Lemma valley_length : path_length valley = 400.
Proof. unfold path_length, intervals, valley. cbn [pf_np pf_xi]. change (Z.to_nat 4) with 4%nat. cbn [INR]. lra. Qed.
Lemma hill_obstructed : well_formed hill /\ ~ unobstructed hill 10 10 0.
Proof.
  split; [exact hill_wf|]. intro U. specialize (U (INR 2 * 100) (sight_angle 0 (10 + 10) 50 (INR 2 * 100))).
  assert (I : In (INR 2 * 100, sight_angle 0 (10 + 10) 50 (INR 2 * 100)) (sights0 hill 10 10 0)).
  { apply in_sights. right. exists 2%nat. split; [unfold intervals; cbn; lia|]. split; reflexivity. }
  specialize (U I). rewrite hill_length in U. change (intervals hill) with 4%nat in U. unfold sight_angle, ground, hill in U. cbn in U. lra.
Qed.
Lemma valley_clear : well_formed valley /\ unobstructed valley 10 10 0.
Proof.
  split; [exact valley_wf|]. intros d a I. apply in_sights in I as [[_ ->]|[j [J [_ ->]]]]; [apply Rle_refl|].
  rewrite valley_length. change (intervals valley) with 4%nat in *. change (pf_xi valley : R) with 100. unfold sight_angle.
  destruct j as [|[|[|[|j]]]]; try lia; unfold ground, valley; cbn; lra.
Qed.
Lemma hill_window : proper hill 150 250 /\ window hill 150 250 1 3 /\ best_line hill 1 3 (3875 / 100) (-25 / 10).
Proof.
  split; [unfold proper; rewrite hill_length; lra|]. split.
  - unfold window. change (pf_xi hill : R) with 100. change (intervals hill) with 4%nat. rewrite Rmax_left by lra. rewrite Rmin_left by (cbn; lra). cbn. lra.
  - pose proof (fit_best 1 3 ltac:(lia) hill) as B. unfold fit_slope, fit_mean, trapezoid, ground, hill in B. cbn in B.
    match type of B with best_line _ _ _ ?x ?y => replace x with (3875 / 100) in B by field; replace y with (-25 / 10) in B by field end. exact B.
Qed.
Lemma hill_case : well_formed hill /\ (1 <= 2 <= pf_np hill)%Z /\ ground valley 0 = 10.
Proof. split; [exact hill_wf|]. split; [cbn; lia | reflexivity]. Qed.
Lemma hill_terrain : 0 <= 0 /\ 400 <= path_length hill /\ 2 * (pf_xi hill : R) <= 400 - 0 /\ terrain_at hill 150 35.
Proof.
  rewrite hill_length. change (pf_xi hill : R) with 100. repeat split; try lra. exists 1%nat. change (intervals hill) with 4%nat. change (pf_xi hill : R) with 100.
  split; [lia|]. unfold ground, hill. cbn. lra.
Qed.
