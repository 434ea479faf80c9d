(** Property theorems C23, C24, C26, C27: the quantiles of avar over the reals. *)
From Verif Require Import RInst SpecQuant PfAvarReal PfQuantCases PfAvarCases PyFloat Cases.
Open Scope R_scope.

(** * C23 *)
(** Raising the confidence deviate never raises the returned value, in any variability mode. *)
Theorem C23_monotone_in_confidence : forall (t l c c' a a' : R) p q q', stat_state p ->
  avar RA t l c p = Ok (a, q) -> avar RA t l c' p = Ok (a', q') -> c <= c' -> a' <= a.
Proof. exact C23_conf. Qed.
Print Assumptions C23_monotone_in_confidence.

Example C23_case : forall m (c : R), (0 <= m <= 3)%Z ->
  stat_state (case_stat m 5) /\ exists a q, avar RA 0 0 c (case_stat m 5) = Ok (a, q) /\ pz q KDV = Some m.
Proof. intros m c M. split; [apply case_stat_full | apply case_stat_mode; exact M]. Qed.
(** also reachable: a dictionary edited after a call, to be refreshed with lvar = 1 *)
Example C23_case_next : exists p, stat_state p /\ pz p LVAR = Some 1%Z /\ exists a q, avar RA 0 0 1 p = Ok (a, q).
Proof. destruct case_stat_next as (p & S & L & I). exists p. split; [exact S|]. split; [exact L|]. exact (C27_total 0 0 1 p S I). Qed.
(** the value does change with the deviate *)
Example C23_case_strict : on_ok (avar_calls TA (avar TA) [(PI 0, PI 0, PI (-1)); (PI 0, PI 0, PI 1)] case_avar)
  (fun r => match fst r with [a; b] => @n_ltb TA b a | _ => false end) = true.
Proof. vm_compute. reflexivity. Qed.

(** * C24 *)
(** In every mode but the single-message one (kdv = 0, where the time deviate is not used), raising the time deviate
    never raises the returned value. *)
Theorem C24_monotone_in_time : forall (t t' l c a a' : R) p q q' k, stat_state p ->
  avar RA t l c p = Ok (a, q) -> avar RA t' l c p = Ok (a', q') -> pz q KDV = Some k -> k <> 0%Z -> t <= t' -> a' <= a.
Proof. exact C24_time. Qed.
Print Assumptions C24_monotone_in_time.

Example C24_case : forall m (t : R), (1 <= m <= 3)%Z ->
  stat_state (case_stat m 5) /\ exists a q, avar RA t 0 (-2) (case_stat m 5) = Ok (a, q) /\ pz q KDV = Some m.
Proof. intros m t M. split; [apply case_stat_full | apply case_stat_mode; lia]. Qed.

(** * C26 *)
(** The returned value is the compressed raw quantile: the raw value itself when that is not negative, otherwise strictly
    between the raw value and 0. *)
Theorem C26_compressed_raw_quantile : forall (t l c a : R) p q, stat_state p -> avar RA t l c p = Ok (a, q) ->
  exists v k, values q quantile_keys v /\ pz q KDV = Some k /\
    let raw := raw_quantile v k t l c in
    a = squash raw /\ (0 <= raw -> a = raw) /\ (raw < 0 -> raw < a < 0).
Proof. exact C26_facts. Qed.
Print Assumptions C26_compressed_raw_quantile.

(** Compression is strictly increasing, the identity from 0 on, and keeps negative values negative. *)
Theorem C26_compression_strictly_increasing : 
  (forall a, 0 <= a -> squash a = a) /\ (forall a, a < 0 -> a < squash a < 0) /\ (forall a b, a < b -> squash a < squash b).
Proof. exact squash_facts. Qed.
Print Assumptions C26_compression_strictly_increasing.

Example C26_case_negative : on_ok (avar TA (PI 2) (PI 0) (PI 3) (setn case_avar AREF (PI 0)))
  (fun r => @n_ltb TA (fst r) (PI 0)) = true.
Proof. vm_compute. reflexivity. Qed.

(** * C27 *)
(** With the documented entries present and in range, and statistics set up (lvar > 4, or an earlier call), avar
    returns a value. *)
Theorem C27_total_on_documented_inputs : forall (t l c : R) p, stat_state p -> avar_inputs p ->
  exists a q, avar RA t l c p = Ok (a, q).
Proof. exact C27_total. Qed.
Print Assumptions C27_total_on_documented_inputs.

(** Whenever avar returns, in any arithmetic, a positive lvar has become 0, and besides lvar, klim and kwx only entries
    avar itself caches have changed. *)
Theorem C27_effects_on_dictionary : forall (A : arith) (t l c a : num A) p q lv, avar A t l c p = Ok (a, q) ->
  pz p LVAR = Some lv ->
  pz q LVAR = Some (if (0 <? lv)%Z then 0%Z else lv) /\ same_except cache_n [KLIM; KWX; KDV; LVAR] [WS; WL] p q.
Proof. exact C27_effects. Qed.
Print Assumptions C27_effects_on_dictionary.

Example C27_case : forall mdvar, stat_state (case_stat mdvar 5) /\ avar_inputs (case_stat mdvar 5).
Proof. intro m. split; [apply case_stat_full | apply case_stat_inputs]. Qed.
