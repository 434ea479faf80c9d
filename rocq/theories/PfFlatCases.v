(** Concrete paths over straight ground. *)
From Coq Require Import Lra Lia.
From Verif Require Import RTac SpecFlat Stats Prep Scripts PfHzns PfTerrainCases PfReverse4 PfReverseCases PfTilt3 PfFlat PfFlat2 PyFloat Cases PfRuns Arith.
Open Scope R_scope.

(** Three heights rising by b, x metres apart. *)
Definition ramp (x b : R) : profile RA := @Profile RA 2 x [0; b; 2 * b].
Lemma ramp_wf x b : 0 < x -> well_formed (ramp x b).
Proof. intro. unfold well_formed, ramp. cbn. repeat split; try lia. exact H. Qed.
Lemma ramp_straight x b : straight (ramp x b) 0 b.
Proof. intros k K. change (intervals (ramp x b)) with 2%nat in K. destruct k as [|[|[|k]]]; [| | |lia]; unfold ground, ramp; cbn; ring. Qed.
Lemma near_horizons x b h0 h1 g : 0 < x -> 0 < g -> 0 < h0 -> 0 < h1 -> g * x * x <= 2 * h0 -> g * x * x <= 2 * h1 -> within_horizons (ramp x b) h0 h1 g.
Proof.
  intros X G H0 H1 L0 L1. unfold within_horizons, path_length. change (intervals (ramp x b)) with 2%nat. change (pf_xi (ramp x b) : R) with x. cbn [INR].
  assert (S : forall h, g * x * x <= 2 * h -> x <= smooth_horizon h g).
  { intros h L. unfold smooth_horizon. rewrite <- (sqrt_square x) by lra. apply sqrt_le_1_alt. apply Rmult_le_reg_r with g; [exact G|]. unfold Rdiv. rewrite (Rmult_assoc (2 * h)), Rinv_l by lra. lra. }
  pose proof (S h0 L0). pose proof (S h1 L1). lra.
Qed.
(** 5 km of level ground in binary64: p2p.py's reference attenuation against qlra and lrprop. *)
Definition close (m : num TA) (p q : prop TA) : bool :=
  match pn p AREF, pn q AREF with Some a, Some b => @n_ltb TA (@n_abs TA (@n_sub TA a b)) m && @n_ltb TA (PI 1) a | _, _ => false end.
Lemma level_run : match p2p_prepare TA (map PI [0; 0; 0; 0; 0]%Z) (link 5 10 10) with
  | Ok p => match (let! q := qlra TA 0 0 (setn p DH (PI 0)) in lrprop TA (PI 5000) q) with Ok q => close (L 1 1000000) p q | _ => false end
  | _ => false end = true.
Proof. vm_compute. reflexivity. Qed.
Lemma curvature_le : script_curvature <= 157 / 1000000000.
Proof. unfold script_curvature. pose proof (exp_pos (314 / 179.3)). lra. Qed.
