(** Specification vocabulary for the scripts: percentiles, output levels, distance grid. *)
From Coq Require Import Sorting.Permutation Sorting.Sorted.
From Verif Require Export RInst Misc.
Open Scope R_scope.

(** v is the q-th percentile of x: position q/100 * (n - 1) in the ascending list, linear between neighbours. *)
Definition percentile (x : list R) (q v : R) : Prop :=
  exists s i lo hi, Permutation x s /\ StronglySorted Rle s /\
    INR i <= q / 100 * (INR (length x) - 1) < INR i + 1 /\
    nth_error s i = Some lo /\ (nth_error s (S i) = Some hi \/ (S i = length s /\ hi = lo)) /\
    v = lo + (hi - lo) * (q / 100 * (INR (length x) - 1) - INR i).

(** The reliability/confidence pairs (percent) of p2p.py in the order of its output. *)
Definition p2p_levels : list (Z * Z) :=
  [(1, 50); (1, 90); (1, 10); (10, 50); (10, 90); (10, 10); (50, 50); (50, 90); (50, 10);
   (90, 50); (90, 90); (90, 10); (99, 50); (99, 90); (99, 10)]%Z.
(** z is the standard normal deviate of level r percent. *)
Definition deviate (A : arith) (r : Z) (z : num A) : Prop :=
  exists t, n_div (n_Z r) (n_Z 100) = Ok t /\ qerfi A [t] = Ok [z].

(** The distances of area.py: n1 steps of DS1 from D0, then n2 steps of DS2. *)
Definition area_distances (D0 DS1 DS2 : R) (n1 n2 : nat) : list R :=
  map (fun i => D0 + INR i * DS1) (seq 0 n1) ++ map (fun j => D0 + INR (n1 - 1) * DS1 + INR (S j) * DS2) (seq 0 n2).
(** The first distance in use: D0, else DS1, else 2, the first one that is positive. *)
Definition start_distance (D0 DS1 : R) : R := if Rlt_dec 0 D0 then D0 else if Rlt_dec 0 DS1 then DS1 else 2.
(** last is the grid point closest to the limit from above by less than three quarters of a step. *)
Definition reaches (limit step last : R) : Prop := limit - 1 / 4 * step < last <= limit + 3 / 4 * step.
