(** C72: the table pimter.py computes for a flight over measured terrain.  Exact reals, except where stated. *)
From Coq Require Import Lra Lia.
From Verif Require Import RInst SpecPimter SpecIgnored Scripts PfPimterRun PfIgnored PfPimterRow PfTilt3 PfFlight PyFloat Cases Arith.
Open Scope R_scope.

(** Every terrain with a distance for every height, the first two distances increasing.  The height of the antenna runs from 10 m
    to 130 m; v k is what the script works with at k metres.  All 121 rows in order if every height can be computed; otherwise the
    first height that cannot decides the error and no row is returned.  NotReal is the logarithm of a number that is not positive. *)
Theorem C72_table : forall dist z : list R, length z = length dist -> (2 <= length dist)%nat -> nth 0 dist 0 < nth 1 dist 0 ->
  let x := path_length (walked_path dist z) in let heights := seq 10 121 in exists v : nat -> nkey -> R,
  (forall k, In k heights -> flight_values dist z (INR k) (v k) /\ (x <= 200000 -> scatters (v k) x) /\ (ground_ok (v k) -> curve_ok (v k))) /\
  ((forall k, In k heights -> flyable (v k) x) -> exists rows, run_itmlogic RA z dist = Ok rows /\
     map (fun r : R * R * R * R => let '(f, h, q, _) := r in (f, h, q)) rows = map (fun k => (2488, INR k, 50)) heights) /\
  (forall k, In k heights -> (forall j, (10 <= j < k)%nat -> flyable (v j) x) ->
     (~ curve_ok (v k) -> run_itmlogic RA z dist = Err NotReal) /\
     (curve_ok (v k) -> scatters (v k) x -> divides_by_zero (v k) x -> run_itmlogic RA z dist = Err ZeroDivisionError)).
Proof. exact pimter_exact. Qed.
Print Assumptions C72_table.

(** The heights share one dictionary, but every row is the one its height gives alone. *)
Theorem C72_rows_apart : forall (z dist : list R) rows, run_itmlogic RA z dist = Ok rows ->
  exists fm p zr, pimter_prepare RA z dist = Ok (fm, p) /\ pimter_dev RA = Ok zr /\
  forall i h row, nth_error (pimter_txht RA) i = Some h -> nth_error rows i = Some row -> pimter_loop RA fm zr zr [h] p = Ok [row].
Proof. exact pimter_apart. Qed.
Print Assumptions C72_rows_apart.

(** Any arithmetic: of the distances only the first two and their number matter, so terrain sampled unevenly is taken as even and the
    measured length of the path is not used. *)
Theorem C72_first_spacing : forall (A : arith) (z d d' : list (num A)) (a b : num A), length d = length d' ->
  nth_error d 0 = Some a -> nth_error d' 0 = Some a -> nth_error d 1 = Some b -> nth_error d' 1 = Some b -> numeric_last d -> numeric_last d' ->
  run_itmlogic A z d = run_itmlogic A z d'.
Proof. exact pimter_spacing. Qed.
Print Assumptions C72_first_spacing.

(** Level ground up to 19 km, however it is sampled and however high it lies: every height can be computed. *)
Theorem C72_level_ground : forall (dist z : list R) (c : R), length z = length dist -> (2 <= length dist)%nat -> nth 0 dist 0 < nth 1 dist 0 -> (forall x, In x z -> x = c) ->
  path_length (walked_path dist z) <= 19000 -> exists rows, run_itmlogic RA z dist = Ok rows /\
    map (fun r : R * R * R * R => let '(f, h, q, _) := r in (f, h, q)) rows = map (fun k => (2488, INR k, 50)) (seq 10 121).
Proof. exact level_flight. Qed.
Print Assumptions C72_level_ground.

(** A hill between the antennas, distances 1 km apart: within 200 km, so only the curve can fail. *)
Example C72_case : let dist := [0; 1000; 2000; 3000] in let z := [100; 140; 120; 100] in
  length z = length dist /\ (2 <= length dist)%nat /\ nth 0 dist 0 < nth 1 dist 0 /\ path_length (walked_path dist z) <= 200000.
Proof. cbn. repeat split; try lia; try lra. unfold path_length, walked_path, intervals. cbn. replace (Pos.to_nat 3) with 3%nat by reflexivity. cbn [INR]. lra. Qed.
(** Python's arithmetic, the last of three samples 3 km or 30 km away: the same table, whatever the heights. *)
Example C72_case_spacing : forall z : list (num TA), run_itmlogic TA z [PI 0; PI 1000; PI 3000] = run_itmlogic TA z [PI 0; PI 1000; PI 30000].
Proof. intro z. eapply (C72_first_spacing TA); try reflexivity; eexists; (split; [reflexivity|]); eexists; reflexivity. Qed.
(** Three samples at 120 m, 1 km apart. *)
Example C72_case_level : exists rows, run_itmlogic RA [120; 120; 120] [0; 1000; 2000] = Ok rows /\ length rows = 121%nat.
Proof.
  destruct (C72_level_ground [0; 1000; 2000] [120; 120; 120] 120) as (rows & E & M); [reflexivity | cbn; lia | cbn; lra | cbn; intuition | | exists rows; split; [exact E|]].
  - unfold path_length, walked_path, intervals. cbn. replace (Pos.to_nat 2) with 2%nat by reflexivity. cbn [INR]. lra.
  - apply (f_equal (@length _)) in M. rewrite !map_length, seq_length in M. exact M.
Qed.
