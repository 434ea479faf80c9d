(** Property theorem C55: the statistics avar caches, over the reals. *)
From Verif Require Import RInst SpecStats PfStats PfQuantCases PfAvarReal PyFloat Cases.
Open Scope R_scope.

(** * C55 *)
(** Whenever avar refreshes its statistics (lvar > 0) the entries that depend on the distance are the reference values; with
    lvar > 1 also the distance of equal losses, with lvar > 2 also the frequency factors.  The climate row is C22, the mode
    flags C21, the quantile computed from these entries C26. *)
Theorem C55_reference_statistics : forall (t l c a : R) p q lv, stat_state p -> avar RA t l c p = Ok (a, q) ->
  pz p LVAR = Some lv -> (0 < lv)%Z ->
  exists v pp interf, values q stat_keys v /\ pb q WL = Some pp /\ pb q WS = Some interf /\ (pp = false -> values q [DH; WN] v) /\
    distance_stats v pp interf /\
    ((1 < lv)%Z -> values q [HE0; HE1; WN] v /\ v DEXA = equal_distance v) /\
    ((2 < lv)%Z -> v GM = freq_factor v CFM1 CFM2 CFM3 /\ v GP = freq_factor v CFP1 CFP2 CFP3).
Proof. exact avar_stats. Qed.
Print Assumptions C55_reference_statistics.

Example C55_case : forall m, (0 <= m <= 3)%Z -> stat_state (case_stat m 5) /\ pz (case_stat m 5) LVAR = Some 5%Z /\
  exists a q, avar RA 0 0 1 (case_stat m 5) = Ok (a, q).
Proof.
  intros m M. split; [apply case_stat_full|]. split; [reflexivity|].
  destruct (case_stat_mode m 0 0 1 M) as (a & q & H & _). exists a, q. exact H.
Qed.
Example C55_case_next : exists p, stat_state p /\ pz p LVAR = Some 1%Z /\ exists a q, avar RA 0 0 1 p = Ok (a, q).
Proof. destruct case_stat_next as (p & S & L & I). exists p. split; [exact S|]. split; [exact L|]. exact (C27_total 0 0 1 p S I). Qed.
