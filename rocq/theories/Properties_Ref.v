(** Property theorems C56-C58 (and the formula of C13): every parameter lrprop stores is that of the reference formulas, over exact reals. *)
From Verif Require Import RInst SpecLr SpecSetup SpecScat SpecLosRef PfSetup PfRef PfLosRef PfRealRun.
Open Scope R_scope.

(** * C56 *)
Theorem C56_reference_parameters : forall (d : R) (ds : list R) (p p' : prop RA) (m : Z),
  pz p MDP = Some m -> m <> 0%Z -> lr_calls RA (d :: ds) p = Ok p' ->
  exists v, values p setup_inputs v /\ values p' setup_keys v /\
    geometry_params v /\ diffraction_params v (m <? 0)%Z /\ line_params v.
Proof. exact setup_reference. Qed.
Print Assumptions C56_reference_parameters.

Theorem C56_clutter_factor_range : forall (v : nkey -> R) (p2p : bool),
  0 <= v HG0 -> 0 <= v HG1 -> 0 <= v WN -> 0 <= v DH -> 0 <= v DLSA -> diffraction_params v p2p -> 0 <= v AFO <= 15.
Proof. exact clutter_bounds. Qed.
Print Assumptions C56_clutter_factor_range.

(** * C13 *)
(** The whole curve in one formula (where it is defined, see C13_height_gain_total). *)
Theorem C13_height_gain_formula : forall x k y : R, fht RA x k = Ok y -> y = height_gain x k.
Proof. exact fht_value. Qed.
Print Assumptions C13_height_gain_formula.

(** * C57 *)
Theorem C57_reference_scatter : forall (d : R) (ds : list R) (p p' : prop RA) (m : Z),
  pz p MDP = Some m -> m <> 0%Z -> lr_calls RA (d :: ds) p = Ok p' -> pb p' WSCAT = Some true ->
  exists v, values p' scatter_keys v /\ scatter_params v.
Proof. exact scat_reference. Qed.
Print Assumptions C57_reference_scatter.

(** * C58 *)
Theorem C58_reference_line_of_sight : forall (d : R) (ds : list R) (p p' : prop RA) (m : Z),
  pz p MDP = Some m -> m <> 0%Z -> lr_calls RA (d :: ds) p = Ok p' -> pb p' WLOS = Some true ->
  exists v, values p' los_keys v /\ los_params v.
Proof. exact los_reference. Qed.
Print Assumptions C58_reference_line_of_sight.

(** A dictionary for which all three are computed, run over the exact reals. *)
Example C13_formula_case : exists y : R, fht RA 500 0.01 = Ok y.
Proof. eexists. exact (PfCurves.fht_mid 500 0.01 ltac:(lra)). Qed.
Example C56_C57_C58_case : pz case_real MDP = Some 1%Z /\ exists p0, lr_calls RA [0] case_real = Ok p0 /\
  pb p0 WLOS = Some true /\ pb p0 WSCAT = Some true /\ above p0 AK1 0 /\ above p0 EMD 0 /\ above p0 DX 22000.
Proof.
  split; [reflexivity|]. destruct case_real_runs as [p0 [E H]]. exists p0. split; [|tauto].
  cbn [lr_calls]. unfold num in *. cbn in E |- *. rewrite E. reflexivity.
Qed.
