(** C64: the area script returns its table for every everyday request, or divides by zero, and exactly when.
    Exact reals. *)
From Verif Require Import RInst SpecAreaRun Scripts PfAreaRun4 PfRealScripts2 PyFloat Cases.
Open Scope R_scope.

(** The script as it stands: the 66 rows of 22 distances, or ZeroDivisionError when a grid distance meets one of the
    coincidences; with a diffraction line that is not negative at zero the line-of-sight fit never does. *)
Theorem C64_area_script : forall (p : prop RA) f h0 h1 dh, area_request p f h0 h1 dh ->
  exists v, area_values 2 2 p v /\ (0 <= v AED -> ~ los_coincidence v) /\
    ((exists x, In x script_distances /\ divides_by_zero v (x * 1000)) -> itmlogic_area RA p = Err ZeroDivisionError) /\
    (~ (exists x, In x script_distances /\ divides_by_zero v (x * 1000)) ->
       exists rows, itmlogic_area RA p = Ok rows /\ map fst rows = flat_map (fun d => map (fun q => (d, q)) [50; 90; 10]) script_distances).
Proof. exact script_exact. Qed.
Print Assumptions C64_area_script.

(** The same for any siting, grid, time, location and confidence levels. *)
Theorem C64_any_settings : forall (c : area_cfg RA) (p : prop RA) f h0 h1 dh, area_request p f h0 h1 dh ->
  start_distance (cfg_D0 RA c) (cfg_DS1 RA c) < cfg_D1 RA c -> 0 < cfg_DS1 RA c ->
  exists v n1 n2, area_values (cfg_KST0 RA c) (cfg_KST1 RA c) p v /\ (0 <= v AED -> ~ los_coincidence v) /\
    let ds := area_distances (start_distance (cfg_D0 RA c) (cfg_DS1 RA c)) (cfg_DS1 RA c) (cfg_DS2 RA c) n1 n2 in
    area_grid_counts c n1 n2 /\
    ((exists d, In d ds /\ divides_by_zero v (d * 1000)) -> itmlogic_area_cfg RA c p = Err ZeroDivisionError) /\
    (~ (exists d, In d ds /\ divides_by_zero v (d * 1000)) ->
       exists rows, itmlogic_area_cfg RA c p = Ok rows /\ map fst rows = flat_map (fun d => map (fun q => (d, q)) (cfg_QC RA c)) ds).
Proof. exact area_exact. Qed.
Print Assumptions C64_any_settings.

(** No other error, whatever the settings. *)
Theorem C64_no_other_error : forall (c : area_cfg RA) (p : prop RA) f h0 h1 dh, area_request p f h0 h1 dh ->
  start_distance (cfg_D0 RA c) (cfg_DS1 RA c) < cfg_D1 RA c -> 0 < cfg_DS1 RA c ->
  (exists rows, itmlogic_area_cfg RA c p = Ok rows) \/ itmlogic_area_cfg RA c p = Err ZeroDivisionError.
Proof. exact any_grid. Qed.
Print Assumptions C64_no_other_error.

(** A request of 573 MHz between masts of 143.9 m and 8.5 m over hills of 70 m; the default grid meets the other conditions. *)
Example C64_request : area_request (area_call 573 143.9 8.5 70 1) 573 143.9 8.5 70.
Proof. apply area_call_request; lra. Qed.
Example C64_default : start_distance (cfg_D0 RA (area_default RA)) (cfg_DS1 RA (area_default RA)) < cfg_D1 RA (area_default RA) /\ 0 < cfg_DS1 RA (area_default RA).
Proof. cbn [area_default cfg_D0 cfg_DS1 cfg_D1 n_Z RA]. unfold start_distance. destruct (Rlt_dec 0 10); lra. Qed.
(** Antennas of 30 m and 10 m over hills of 90 m at 300 MHz: answered. *)
Example C64_answered : area_request (area_call 300 30 10 90 1) 300 30 10 90 /\ exists rows, itmlogic_area RA (area_call 300 30 10 90 1) = Ok rows.
Proof. split; [exact area_case_request | exact area_case_answered]. Qed.
