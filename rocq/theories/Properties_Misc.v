(** Property theorems C36, C37, C38, C39, C40: qtile, qerf, qerfi over the reals. *)
From Coq Require Import Sorting.Permutation.
From Verif Require Import RInst Misc SpecNormal PfSort PfMisc PfNormal.
Open Scope R_scope.

(** * C36 *)
(** The result is an element of the list; with k the (Python) index counted from the front, at most k elements are larger
    and at least k+1 are at least as large. *)
Theorem C36_order_statistic : forall (a : list R) (ir : Z) (v : R), qtile RA a ir = Ok v ->
  let k := (if (ir <? 0)%Z then ir + Z.of_nat (length a) else ir)%Z in
  In v a /\ (Z.of_nat (length (filter (fun y => r_ltb v y) a)) <= k)%Z
  /\ (k + 1 <= Z.of_nat (length (filter (fun y => r_leb v y) a)))%Z.
Proof. exact qtile_order. Qed.
Print Assumptions C36_order_statistic.
Theorem C36_multiset : forall (a b : list R) (ir : Z), Permutation a b -> qtile RA a ir = qtile RA b ir.
Proof. exact qtile_perm. Qed.
Print Assumptions C36_multiset.
Theorem C36_antitone_in_index : forall (a : list R) (i j : Z) (u v : R), (0 <= i)%Z -> (i <= j)%Z ->
  qtile RA a i = Ok u -> qtile RA a j = Ok v -> v <= u.
Proof. exact qtile_mono. Qed.
Print Assumptions C36_antitone_in_index.
Theorem C36_defined_exactly_inside : forall (a : list R) (ir : Z),
  (exists v : R, qtile RA a ir = Ok v) <-> (- Z.of_nat (length a) <= ir < Z.of_nat (length a))%Z.
Proof. exact qtile_defined. Qed.
Print Assumptions C36_defined_exactly_inside.
Theorem C36_fails_with_index_error : forall (a : list R) (ir : Z) e, qtile RA a ir = Err e -> e = IndexError.
Proof. exact qtile_fails. Qed.
Print Assumptions C36_fails_with_index_error.

Example C36_case : forall a : list R, a <> [] -> exists u v : R,
  qtile RA a 0 = Ok u /\ qtile RA a (-1) = Ok v /\ (forall x, In x a -> v <= x <= u).
Proof. exact qtile_extremes. Qed.

(** * C37 *)
Theorem C37_total_in_unit_interval : forall z : R, exists v : R, qerf RA z = Ok v /\ 0 <= v <= 1.
Proof. exact qerf_total. Qed.
Print Assumptions C37_total_in_unit_interval.
Theorem C37_reflection : forall z v w : R, z <> 0 -> qerf RA z = Ok v -> qerf RA (- z)%R = Ok w -> w = 1 - v.
Proof. exact qerf_refl. Qed.
Print Assumptions C37_reflection.
(** at 0 the reflection rule fails by less than 1e-8: the value is just below 1/2 *)
Theorem C37_value_at_zero : exists v : R, qerf RA 0 = Ok v /\ 1 / 2 - 1 / 10 ^ 8 < v < 1 / 2.
Proof. exact qerf_zero. Qed.
Print Assumptions C37_value_at_zero.
Theorem C37_antitone : forall z z' v v' : R, z <= z' -> qerf RA z = Ok v -> qerf RA z' = Ok v' -> v' <= v.
Proof. exact qerf_anti. Qed.
Print Assumptions C37_antitone.
Theorem C37_saturates : forall z : R, 10 <= z -> qerf RA z = Ok 0 /\ qerf RA (- z)%R = Ok 1.
Proof. exact qerf_far. Qed.
Print Assumptions C37_saturates.

(** * C38 *)
(** The documented accuracy (qerf.py:6, "The maximum error should be 7.5x10^-8") is exceeded: at z = 0.7158 the error is
    more than 8.2e-8 (the coefficient b4 has two digits exchanged with respect to Hastings' table). *)
Theorem C38_documented_accuracy_refuted : exists z v q : R,
  qerf RA z = Ok v /\ normal_tail z q /\ Rabs (v - q) > 82 / 10 ^ 9.
Proof. exact qerf_doc. Qed.
Print Assumptions C38_documented_accuracy_refuted.
(** What holds instead, for every real argument: an error of at most 8.3e-8. *)
Theorem C38_accuracy_partial : forall z v q : R, qerf RA z = Ok v -> normal_tail z q -> Rabs (v - q) <= 83 / 10 ^ 9.
Proof. exact qerf_acc. Qed.
Print Assumptions C38_accuracy_partial.
(** the specification determines one value for every argument *)
Theorem C38_tail_exists_unique : forall z : R, exists q : R, normal_tail z q /\ forall q', normal_tail z q' -> q' = q.
Proof. exact tail_exists_unique. Qed.
Print Assumptions C38_tail_exists_unique.
Example C38_case : normal_tail 0 (1 / 2).
Proof. exact tail_zero. Qed.

(** * C39 *)
Theorem C39_one_deviate_per_level : forall q : list R, exists v : list R, qerfi RA q = Ok v /\ length v = length q
  /\ forall k x y, nth_error q k = Some x -> nth_error v k = Some y -> qerfi RA [x] = Ok [y].
Proof. exact qerfi_pointwise. Qed.
Print Assumptions C39_one_deviate_per_level.
Theorem C39_odd : forall q v w : R, qerfi RA [q] = Ok [v] -> qerfi RA [(1 - q)%R] = Ok [w] -> w = - v.
Proof. exact qerfi_odd. Qed.
Print Assumptions C39_odd.
Theorem C39_antitone : forall q q' v v' : R, q <= q' -> qerfi RA [q; q'] = Ok [v; v'] -> v' <= v.
Proof. exact qerfi_anti. Qed.
Print Assumptions C39_antitone.
Theorem C39_saturates : forall q : R, q <= 1 / 1000000 -> qerfi RA [q] = Ok [(47533 / 10000)%R].
Proof. exact qerfi_sat. Qed.
Print Assumptions C39_saturates.
Theorem C39_median : qerfi RA [(1 / 2)%R] = Ok [0].
Proof. exact qerfi_half. Qed.
Print Assumptions C39_median.
Example C39_case : exists v w : R, qerfi RA [(1/10)%R] = Ok [v] /\ qerfi RA [(1 - 1/10)%R] = Ok [w] /\ 128/100 < v < 129/100 /\ w = - v.
Proof. exact qerfi_tenth. Qed.

(** * C40 *)
(** Within 4.5e-4 of the exact deviate before rounding to four decimals, hence within 5e-4 after it. *)
Theorem C40_accuracy : forall q x v : R, 1 / 1000000 <= q <= 1 - 1 / 1000000 -> normal_tail x q ->
  qerfi RA [q] = Ok [v] -> Rabs (v - x) <= 5 / 10000.
Proof. exact qerfi_acc. Qed.
Print Assumptions C40_accuracy.
(** every level strictly between 0 and 1 has an exact deviate *)
Theorem C40_deviate_exists : forall q : R, 0 < q < 1 -> exists x : R, normal_tail x q.
Proof. exact deviate_exists. Qed.
Print Assumptions C40_deviate_exists.
