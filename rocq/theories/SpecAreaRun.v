(** When the distance loop of area.py divides by zero. *)
From Verif Require Export SpecTotal SpecScripts Scripts.
Open Scope R_scope.

(** The line-of-sight fit divides by zero: a flat diffraction line below zero, or a sample point at dlsa. *)
Definition los_coincidence (v : nkey -> R) : Prop :=
  (v AED < 0 /\ v EMD = 0) \/ fit_d1 v = v DLSA \/ (fit_d0 v < fit_d1 v /\ fit_d0 v = v DLSA).
(** The scatter line is parallel to the diffraction line. *)
Definition scat_coincidence (v : nkey -> R) : Prop :=
  let a6 := scatter v (scat_d6 v) (path_gain v (scat_d6 v)) in let a5 := scatter v (scat_d5 v) (near_gain v) in
  a5 < 1000 /\ v EMD = (a6 - a5) / 200000.
(** What is computed at distance x (m): the fit before dlsa, the scatter line beyond. *)
Definition divides_by_zero (v : nkey -> R) (x : R) : Prop :=
  (x < v DLSA /\ los_coincidence v) \/ (v DLSA <= x /\ scat_coincidence v).
(** area.py:77-90: the distances in km. *)
Definition script_distances : list R := map IZR ([10; 20; 30; 40; 50; 60; 70; 80; 90; 100; 110; 120; 130; 140; 150] ++ [200; 250; 300; 350; 400; 450; 500])%Z.
(** The caller's entries, in everyday ranges: frequency from 1 MHz, antennas from half a metre to 3 km, irregularity up to 500 m. *)
Definition area_request (p : prop RA) (f h0 h1 dh : R) : Prop :=
  pn p FMHZ = Some f /\ pn p HG0 = Some h0 /\ pn p HG1 = Some h1 /\ pn p DH = Some dh /\ (exists pol, pz p IPOL = Some pol) /\
  1 <= f /\ 0.5 <= h0 <= 3000 /\ 0.5 <= h1 <= 3000 /\ 0 <= dh <= 500.
(** v holds the entries after the preparation of the path and the reference values of the derived ones (C56). *)
Definition area_values (k0 k1 : Z) (p : prop RA) (v : nkey -> R) : Prop :=
  reference_params v false /\ exists q0 q, area_env RA p = Ok q0 /\ qlra RA k0 k1 q0 = Ok q /\ values q (ENS :: setup_inputs) v.
(** The numbers of distances with the fine and with the coarse step (C47). *)
Definition area_grid_counts (c : area_cfg RA) (n1 n2 : nat) : Prop :=
  let D0 := start_distance (cfg_D0 RA c) (cfg_DS1 RA c) in
  let last := D0 + INR (n1 - 1) * cfg_DS1 RA c in
  (1 <= n1)%nat /\ reaches (cfg_D1 RA c) (cfg_DS1 RA c) last /\
  (if Rlt_dec last (cfg_D2 RA c) then if Rlt_dec 0 (cfg_DS2 RA c) then reaches (cfg_D2 RA c) (cfg_DS2 RA c) (last + INR n2 * cfg_DS2 RA c) else n2 = 0%nat
   else n2 = 0%nat).
