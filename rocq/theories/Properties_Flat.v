(** Property theorems C67: straight ground is smooth ground. *)
From Verif Require Import RInst SpecFlat Stats Prep Scripts PfReverse4 PfReverseCases PfTilt3 PfFlat2 PfFlatCases PyFloat Cases.
Open Scope R_scope.

(** * C67 *)
(** Point-to-point mode over straight ground that does not fall towards the receiver, the path no longer than the two smooth-earth
    horizon distances: qlrpfl fails as, or computes the entries of, the area prediction over smooth ground (dh = 0, terminals
    sited at random) at that distance.  Only mdp differs. *)
Theorem C67_flat : forall (p : prop RA) f v (c b : R), path_entries p f v -> straight f c b -> 0 <= b ->
  within_horizons f (v HG0) (v HG1) (v GME) ->
  same_outcome same_but_mdp (qlrpfl RA p) (let! q := qlra RA 0 0 (setn p DH 0) in lrprop RA (path_length f) q).
Proof. exact flat_same. Qed.
Print Assumptions C67_flat.
(** The quantiles avar computes afterwards are the same. *)
Theorem C67_quantile : forall (p : prop RA) f v (c b zt zl zc : R), path_entries p f v -> straight f c b -> 0 <= b ->
  within_horizons f (v HG0) (v HG1) (v GME) ->
  same_outcome (fun x y => fst x = fst y /\ same_but_mdp (snd x) (snd y))
    (let! q := qlrpfl RA p in avar RA zt zl zc q)
    (let! q := qlra RA 0 0 (setn p DH 0) in let! q := lrprop RA (path_length f) q in avar RA zt zl zc q).
Proof. exact flat_quantile. Qed.
Print Assumptions C67_quantile.
(** How finely such ground is sampled, how high it lies and how fast it rises do not matter: p2p.py prints the same losses and
    propagation mode.  The path is classified with a tolerance of half a sample, so its kind is the same for the same number of samples. *)
Theorem C67_sampling : forall (z z' : list R) (p : prop RA) (d h0 h1 c b c' b' : R), (2 <= length z)%nat -> (2 <= length z')%nat ->
  pn p DKM = Some d -> 0 < d -> pn p HG0 = Some h0 -> pn p HG1 = Some h1 -> 0 < h0 -> 0 < h1 ->
  straight (script_path d z) c b -> straight (script_path d z') c' b' -> 0 <= b -> 0 <= b' ->
  within_horizons (script_path d z) h0 h1 script_curvature ->
  same_outcome (fun o o' => out_mode RA o = out_mode RA o' /\ out_fs RA o = out_fs RA o' /\ out_rows RA o = out_rows RA o' /\
      (length z = length z' -> out_kind RA o = out_kind RA o'))
    (itmlogic_p2p RA z p) (itmlogic_p2p RA z' p).
Proof. exact p2p_flat. Qed.
Print Assumptions C67_sampling.
(** Ground falling by -b per sample: the receiver's effective height is its height above ground plus the drop of one sample, although
    the terrain irregularity is zero. *)
Theorem C67_falling : forall (p : prop RA) f v (c b : R) r, path_entries p f v -> straight f c b -> b < 0 ->
  within_horizons f (v HG0) (v HG1) (v GME) -> qlrpfl RA p = Ok r ->
  pn r DH = Some 0 /\ pn r HE0 = Some (v HG0) /\ pn r HE1 = Some (v HG1 - b) /\ pn r HG1 = Some (v HG1).
Proof. exact falling_geom. Qed.
Print Assumptions C67_falling.
(** So over falling ground the two predictions differ. *)
Theorem C67_falling_differs : forall (p : prop RA) f v (c b : R) r r', path_entries p f v -> straight f c b -> b < 0 ->
  within_horizons f (v HG0) (v HG1) (v GME) -> qlrpfl RA p = Ok r ->
  (let! q := qlra RA 0 0 (setn p DH 0) in lrprop RA (path_length f) q) = Ok r' -> ~ same_but_mdp r r'.
Proof. exact falling_differs. Qed.
Print Assumptions C67_falling_differs.
Example C67_case_ramp : forall b, path_entries (path_dict (ramp 1000 b) 10 10 (1 / 10000000)) (ramp 1000 b) (path_v 10 10 (1 / 10000000)) /\
  straight (ramp 1000 b) 0 b /\ within_horizons (ramp 1000 b) 10 10 (1 / 10000000).
Proof. intro b. split; [apply path_dict_ok; try lra; apply ramp_wf; lra|]. split; [apply ramp_straight | apply near_horizons; lra]. Qed.
Example C67_case_script : straight (script_path 2 [0; 5; 10]) 0 5 /\ straight (script_path 2 [7; 7]) 7 0 /\ within_horizons (script_path 2 [0; 5; 10]) 10 10 script_curvature.
Proof.
  replace (script_path 2 [0; 5; 10]) with (ramp 1000 5).
  - split; [apply ramp_straight|]. split.
    + intros k K. change (intervals (script_path 2 [7; 7])) with 1%nat in K. destruct k as [|[|k]]; [| |lia]; unfold ground, script_path; cbn; ring.
    + apply near_horizons; try lra; pose proof curvature_pos; try lra; pose proof curvature_le; lra.
  - unfold ramp, script_path. replace (2 * 5) with 10 by lra. f_equal. change (1000 = 2 * 1000 / 2)%R. lra.
Qed.
(** 5 km of level ground in binary64: the same reference attenuation within 1e-6 dB. *)
Example C67_case_run : match p2p_prepare TA (map PI [0; 0; 0; 0; 0]%Z) (link 5 10 10) with
  | Ok p => match (let! q := qlra TA 0 0 (setn p DH (PI 0)) in lrprop TA (PI 5000) q) with Ok q => close (L 1 1000000) p q | _ => false end
  | _ => false end = true.
Proof. exact level_run. Qed.
