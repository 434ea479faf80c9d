(** C74: the losses in the tables, as formulas of the path, the environment and the levels.  Exact reals. *)
From Coq Require Import Lra Lia.
From Verif Require Import RInst SpecQuant SpecAreaRun SpecScripts SpecLoss Scripts PfPathRun3 PfAreaRun4 PfPathCases PfRealRun PfRealScripts2 PfQuantCases PfLoss2 PfLoss3 PfLoss4 Arith.
Open Scope R_scope.

(** lrprop's first call, either mode: the whole reference attenuation. *)
Theorem C74_lrprop : forall (d x : R) (p q : prop RA) m, pz p MDP = Some m -> m <> 0%Z -> lrprop RA d p = Ok q -> pn q DIST = Some x -> 0 < x ->
  exists v, values p setup_inputs v /\ values q setup_keys v /\ reference_params v (m <? 0)%Z /\ regime_params v x /\ pn q AREF = Some (attenuation_at v x).
Proof. exact lrprop_formula. Qed.
Print Assumptions C74_lrprop.

(** avar from scratch (lvar at least 5): one set of statistics gives the value for all deviates. *)
Theorem C74_avar : forall (p : prop RA) lv k m, pz p LVAR = Some lv -> (4 < lv)%Z -> pz p KLIM = Some k -> pz p MDVAR = Some m ->
  (exists (t l c a : R) q, avar RA t l c p = Ok (a, q)) ->
  exists v, (forall key x, ~ In key cache_n -> pn p key = Some x -> v key = x) /\ full_statistics (climate_used k) m v /\
    forall (t l c a : R) q, avar RA t l c p = Ok (a, q) -> a = attenuation_for v m t l c.
Proof. exact avar_formula. Qed.
Print Assumptions C74_avar.

(** p2p.py: the fifteen losses of every request it answers. *)
Theorem C74_p2p : forall (p : prop RA) z d f h0 h1 ipol out, path_request p z d f h0 h1 ipol -> itmlogic_p2p RA z p = Ok out ->
  exists v, path_values z d f h0 h1 ipol v /\ prediction v (1000 * d) 5 11 /\ out_fs RA out = free_space v (1000 * d) /\
    Forall2 (fun (rc : Z * Z) row => exists t s : R, deviate RA (fst rc) t /\ deviate RA (snd rc) s /\
      row = (d, IZR (fst rc), IZR (snd rc), free_space v (1000 * d) + attenuation_for v 11 t 0 s)) p2p_levels (out_rows RA out).
Proof. exact p2p_loss. Qed.
Print Assumptions C74_p2p.

(** pimter.py: the loss at every height; the deviate -4.7533 is the one of level 50 taken as a fraction (C53). *)
Theorem C74_pimter : forall (dist z : list R) rows, length z = length dist -> (2 <= length dist)%nat -> nth 0 dist 0 < nth 1 dist 0 ->
  run_itmlogic RA z dist = Ok rows -> let x := path_length (walked_path dist z) in
  Forall2 (fun k row => exists v, flight_values dist z (INR k) v /\ prediction v x 5 11 /\
    row = (2488, INR k, 50, free_space v x + attenuation_for v 11 (-4.7533) 0 (-4.7533))) (seq 10 121) rows.
Proof. exact pimter_loss. Qed.
Print Assumptions C74_pimter.

(** area.py as it stands: three losses at each of 22 distances.  Within the smooth-earth horizon the reference attenuation is the
    one of 10 km at every distance (area_prediction). *)
Theorem C74_area_script : forall (p : prop RA) rows, itmlogic_area RA p = Ok rows -> exists z50 z90 z10 groups,
  deviate RA 50 z50 /\ deviate RA 90 z90 /\ deviate RA 10 z10 /\ rows = concat groups /\
  Forall2 (fun d g => exists v, area_values 2 2 p v /\ area_prediction v 10000 (d * 1000) 5 3 /\
    let loss c : R := free_space v (d * 1000) + attenuation_for v 3 z50 z50 c in
    g = [(d, 50, loss z50); (d, 90, loss z90); (d, 10, loss z10)]) script_distances groups.
Proof. exact area_script_loss. Qed.
Print Assumptions C74_area_script.

(** The same for any siting, grid, time, location and confidence levels. *)
Theorem C74_area : forall (c : area_cfg RA) (p : prop RA) rows, cfg_QC RA c <> [] -> itmlogic_area_cfg RA c p = Ok rows ->
  exists zt zl zc n1 n2 groups,
  qerfi RA [cfg_QT RA c / 100] = Ok [zt] /\ qerfi RA [cfg_QL RA c / 100] = Ok [zl] /\ qerfi RA (map (fun q => q / 100) (cfg_QC RA c)) = Ok zc /\
  area_grid_counts c n1 n2 /\ rows = concat groups /\
  let D0 := start_distance (cfg_D0 RA c) (cfg_DS1 RA c) in
  Forall2 (fun d g => exists v, area_values (cfg_KST0 RA c) (cfg_KST1 RA c) p v /\ area_prediction v (D0 * 1000) (d * 1000) 5 3 /\
    g = map (fun x => (d, fst x, free_space v (d * 1000) + attenuation_for v 3 zt zl (snd x))) (combine (cfg_QC RA c) zc))
    (area_distances D0 (cfg_DS1 RA c) (cfg_DS2 RA c) n1 n2) groups.
Proof. exact area_loss. Qed.
Print Assumptions C74_area.

(** A dictionary on which lrprop runs at 60 km. *)
Example C74_case_lrprop : exists q, pz case_real MDP = Some 1%Z /\ lrprop RA 60000 case_real = Ok q /\ pn q DIST = Some 60000.
Proof. exact loss_case_lrprop. Qed.
(** One on which avar runs, in every mode. *)
Example C74_case_avar : forall m : Z, pz (case_stat m 5) LVAR = Some 5%Z /\ pz (case_stat m 5) KLIM = Some 5%Z /\ pz (case_stat m 5) MDVAR = Some m /\
  exists (t l c a : R) q, avar RA t l c (case_stat m 5) = Ok (a, q).
Proof. intro m. split; [reflexivity|]. split; [reflexivity|]. split; [reflexivity|]. destruct (case_stat_runs m 0 0 0) as (a & q & H). exists 0, 0, 0, a, q. exact H. Qed.
(** A hill of 100 m in the middle of 60 km, 300 MHz, antennas of 30 m and 10 m: answered. *)
Example C74_case_p2p : path_request (path_call 300 60 30 10 1) [0; 100; 0] 60 300 30 10 1 /\
  exists out, itmlogic_p2p RA [0; 100; 0] (path_call 300 60 30 10 1) = Ok out.
Proof. split; [exact hill_request | exact hill_answered]. Qed.
(** The same antennas over hills of 90 m: answered at all 22 distances. *)
Example C74_case_area : exists rows, itmlogic_area RA (area_call 300 30 10 90 1) = Ok rows.
Proof. exact area_case_answered. Qed.
(** The levels of the script are not empty. *)
Example C74_case_levels : cfg_QC RA (area_default RA) <> [].
Proof. discriminate. Qed.
