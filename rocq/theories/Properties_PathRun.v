(** C65: the point-to-point script returns its table for every request, or exactly when not.  Exact reals; the last
    theorem shows the same in Python's arithmetic. *)
From Verif Require Import RInst SpecPathRun Scripts PfPathRun3 PfPathCases PfRealScripts2 PyFloat Cases Arith.
Open Scope R_scope.

(** Every terrain of at least two heights, any positive frequency, distance and antenna heights.  NotReal is the
    logarithm of a number that is not positive (numpy: NaN or -inf). *)
Theorem C65_p2p_script : forall (p : prop RA) z d f h0 h1 ipol, path_request p z d f h0 h1 ipol ->
  exists v, path_values z d f h0 h1 ipol v /\ (d <= 200 -> scatters v (1000 * d)) /\ (ground_ok v -> curve_ok v) /\
    (~ curve_ok v -> itmlogic_p2p RA z p = Err NotReal) /\
    (curve_ok v -> scatters v (1000 * d) -> divides_by_zero v (1000 * d) -> itmlogic_p2p RA z p = Err ZeroDivisionError) /\
    (curve_ok v -> scatters v (1000 * d) -> ~ divides_by_zero v (1000 * d) -> exists out, itmlogic_p2p RA z p = Ok out /\
       out_fs RA out = 8.685890 * ln (2 * v WN * (1000 * d)) /\
       map fst (out_rows RA out) = flat_map (fun r => map (fun c => (d, r, c)) [50; 90; 10]) [1; 10; 50; 90; 99]).
Proof. exact path_exact. Qed.
Print Assumptions C65_p2p_script.

(** Up to 200 km: fifteen rows, a division by zero or the logarithm of a number that is not positive; nothing else. *)
Theorem C65_no_other_error : forall (p : prop RA) z d f h0 h1 ipol, path_request p z d f h0 h1 ipol -> d <= 200 ->
  (exists out, itmlogic_p2p RA z p = Ok out /\ length (out_rows RA out) = 15%nat) \/
  itmlogic_p2p RA z p = Err ZeroDivisionError \/ itmlogic_p2p RA z p = Err NotReal.
Proof. exact path_any. Qed.
Print Assumptions C65_no_other_error.

(** lrprop's first call in either mode (m < 0: point to point, the distance taken from the dictionary). *)
Theorem C65_first_call : forall (d x : R) (p : prop RA) v m k, values p (ENS :: setup_inputs) v -> pz p MDP = Some m -> m <> 0%Z -> pz p KWX = Some k ->
  physical v -> reference_params v (m <? 0)%Z -> (if (0 <=? m)%Z then x = d else pn p DIST = Some x) -> 0 < x -> (forall y, 0 < y -> reflects v y) -> scatters v x ->
  (~ curve_ok v -> lrprop RA d p = Err NotReal) /\
  (curve_ok v -> divides_by_zero v x -> lrprop RA d p = Err ZeroDivisionError) /\
  (curve_ok v -> ~ divides_by_zero v x -> exists q, lrprop RA d p = Ok q).
Proof. exact first_call. Qed.
Print Assumptions C65_first_call.

(** The logarithm does go wrong: at 20 MHz between masts of 300 m just behind hills of 301 m the script returns fifteen
    rows of NaN, without an error. *)
Theorem C65_nan_table : exists (z : list (num TA)) (p : prop TA) o,
  pn p FMHZ = Some (PI 20) /\ pn p DKM = Some (PI 1) /\ itmlogic_p2p TA z p = Ok o /\ length (out_rows TA o) = 15%nat /\
  forall d r c a, In (d, r, c, a) (out_rows TA o) -> a = PN S754_nan.
Proof. exact masts_refuted. Qed.
Print Assumptions C65_nan_table.

(** 41.5 MHz over 77.8 km between antennas of 143.9 m and 8.5 m, seven heights of
    terrain. *)
Example C65_request : path_request (path_call 41.5 77.8 143.9 8.5 0) [96; 84; 65; 46; 46; 46; 61] 77.8 41.5 143.9 8.5 0.
Proof. apply path_call_request; try lra. cbn. lia. Qed.
(** A hill of 100 m in the middle of 60 km at 300 MHz: answered. *)
Example C65_answered : path_request (path_call 300 60 30 10 1) [0; 100; 0] 60 300 30 10 1 /\
  exists out, itmlogic_p2p RA [0; 100; 0] (path_call 300 60 30 10 1) = Ok out.
Proof. split; [exact hill_request | exact hill_answered]. Qed.
