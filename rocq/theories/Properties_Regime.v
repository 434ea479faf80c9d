(** Property theorems C06-C08: the three regimes of the reference attenuation, over exact reals. *)
From Verif Require Import RInst SpecLr SpecRegime PfRegime PfLos PfRealRun.
From Verif Require Import PyFloat Cases.
Open Scope R_scope.

(** * C06 *)
Theorem C06_continuous_at_horizon : forall (d : R) (ds : list R) (p p' : prop RA) (m : Z),
  pz p MDP = Some m -> m <> 0%Z -> lr_calls RA (d :: ds) p = Ok p' -> pb p' WLOS = Some true ->
  exists c, los_entries p' c /\ diff_entries p' c /\ 0 < b_dlsa c /\ los_curve c (b_dlsa c) = diff_line c (b_dlsa c).
Proof. exact (fun d ds p p' m M N H => proj1 (lr_calls_joined_setup d ds p p' m M N H)). Qed.
Print Assumptions C06_continuous_at_horizon.

(** * C07 *)
(** Either dlsa <= dx, or the scatter calculation was inadmissible and the scatter line is the diffraction line. *)
Theorem C07_continuous_at_crossover : forall (d : R) (ds : list R) (p p' : prop RA) (m : Z),
  pz p MDP = Some m -> m <> 0%Z -> lr_calls RA (d :: ds) p = Ok p' -> pb p' WSCAT = Some true ->
  exists c, diff_entries p' c /\ scat_entries p' c /\ scat_line c (b_dx c) = diff_line c (b_dx c) /\
    (b_dlsa c <= b_dx c \/ (b_aes c = b_aed c /\ b_ems c = b_emd c)).
Proof. exact (fun d ds p p' m M N H => proj2 (lr_calls_joined_setup d ds p p' m M N H)). Qed.
Print Assumptions C07_continuous_at_crossover.

(** The attenuation returned for a distance d > 0 is a continuous function of d. *)
Theorem C07_reference_curve : forall (p p0 : prop RA) (m : Z), pz p MDP = Some m -> (0 < m)%Z -> lrprop RA 0 p = Ok p0 ->
  exists c, (los_entries p0 c /\ diff_entries p0 c /\ scat_entries p0 c) /\ 0 < b_dlsa c /\
    (forall d, 0 < d -> exists p', lrprop RA d p = Ok p' /\ pn p' AREF = Some (reference c d)) /\
    (forall d, 0 < d -> continuity_pt (reference c) d).
Proof. exact reference_curve. Qed.
Print Assumptions C07_reference_curve.

(** * C08 *)
(** Full claim: without the two conditions on dla and on the diffraction line; see C08_coefficients_refuted. *)
Theorem C08_coefficients_partial : forall (d : R) (ds : list R) (p p' : prop RA) (m : Z) (c : branches) (dla : R),
  pz p MDP = Some m -> m <> 0%Z -> lr_calls RA (d :: ds) p = Ok p' -> pb p' WLOS = Some true ->
  los_entries p' c -> diff_entries p' c -> pn p' DLA = Some dla ->
  0 < dla <= 2 * b_dlsa c -> 0 <= diff_line c (b_dlsa c) ->
  0 <= b_ak2 c /\ (0 <= b_ak1 c \/ b_ak1 c = b_emd c).
Proof. exact los_sane. Qed.
Print Assumptions C08_coefficients_partial.

(** Under the same conditions the attenuation returned never falls as the distance grows, up to dx, and beyond if ems >= 0. *)
Theorem C08_monotone_partial : forall (p p0 : prop RA) (m : Z) (c : branches) (dla x y : R),
  pz p MDP = Some m -> (0 < m)%Z -> lrprop RA 0 p = Ok p0 ->
  los_entries p0 c -> diff_entries p0 c -> scat_entries p0 c -> pn p0 DLA = Some dla ->
  0 < dla <= 2 * b_dlsa c -> 0 <= diff_line c (b_dlsa c) -> 0 <= b_emd c ->
  0 <= b_ems c \/ y <= b_dx c \/ y < b_dlsa c -> 0 < x -> x <= y ->
  exists px py (ax ay : R), lrprop RA x p = Ok px /\ lrprop RA y p = Ok py /\ pn px AREF = Some ax /\ pn py AREF = Some ay /\ ax <= ay.
Proof. exact aref_monotone. Qed.
Print Assumptions C08_monotone_partial.

(** All inputs in range (kwx = 0), emd > 0: a coefficient below -30, and 5 km is worse than 20 km by over 40 dB. *)
Theorem C08_coefficients_refuted : exists p0 p1 p2 (k2 a1 a2 : num TA),
  lrprop TA (PI 0) (case_steep (PI 100) (PI 100000) (PI 10) (PI 500)) = Ok p0 /\
  lrprop TA (PI 5000) (case_steep (PI 100) (PI 100000) (PI 10) (PI 500)) = Ok p1 /\
  lrprop TA (PI 20000) (case_steep (PI 100) (PI 100000) (PI 10) (PI 500)) = Ok p2 /\
  pb p0 WLOS = Some true /\ pn p0 AK2 = Some k2 /\ @n_ltb TA k2 (PI (-30)) = true /\
  has_n p0 EMD (fun e => @n_ltb TA (PI 0) e) = true /\
  pn p1 AREF = Some a1 /\ pn p2 AREF = Some a2 /\ @n_ltb TA (@n_add TA a2 (PI 40)) a1 = true /\
  pz p1 KWX = Some 0%Z /\ pz p2 KWX = Some 0%Z.
Proof. exact los_negative. Qed.
Print Assumptions C08_coefficients_refuted.

Theorem C08_three_points : forall (d : R) (ds : list R) (p p' : prop RA) (m : Z) (c : branches) (dla : R),
  pz p MDP = Some m -> m <> 0%Z -> lr_calls RA (d :: ds) p = Ok p' -> pb p' WLOS = Some true ->
  los_entries p' c -> diff_entries p' c -> pn p' DLA = Some dla ->
  forall wn he0 he1 : R, pn p' WN = Some wn -> pn p' HE0 = Some he0 -> pn p' HE1 = Some he1 ->
  0 < b_ak1 c -> 0 < b_ak2 c ->
  let d0 := los_d0 wn he0 he1 dla (b_aed c) in let d1 := los_d1 wn he0 he1 dla (b_aed c) (b_emd c) in
  d0 < d1 /\ alos RA d0 p' = Ok (los_curve c d0) /\ alos RA d1 p' = Ok (los_curve c d1) /\
  los_curve c (b_dlsa c) = diff_line c (b_dlsa c).
Proof. exact los_three_points. Qed.
Print Assumptions C08_three_points.

(** A dictionary meeting all hypotheses of C06-C08, run over the exact reals. *)
Example C06_C07_C08_case : pz case_real MDP = Some 1%Z /\ exists p0, lr_calls RA [0] case_real = Ok p0 /\
  pb p0 WLOS = Some true /\ pb p0 WSCAT = Some true /\
  above p0 AK1 0 /\ above p0 AK2 0 /\ above p0 AED 0 /\ above p0 EMD 0 /\ above p0 DLSA 22000 /\ above p0 DX 22000 /\
  pn p0 DLA = Some (8000 + 13000).
Proof.
  split; [reflexivity|]. destruct case_real_runs as [p0 [E H]]. exists p0. split; [|tauto].
  cbn [lr_calls]. unfold num in *. cbn in E |- *. rewrite E. reflexivity.
Qed.
