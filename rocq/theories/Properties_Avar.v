(** Property theorems C19-C22, C25: avar's caches, levels, mode and climate codes (any arithmetic). *)
From Verif Require Import RInst SpecAvar PfAvarGen PfAvarInc PfAvarApi PfAvarCases PyFloat Cases.
Open Scope Z_scope.

(** * C19 *)
(** After one call, any sequence of further calls changes nothing but kwx, and a later call returns what it
    would have returned as the first one. *)
Theorem C19_history_independent : forall (A : arith) t l c (p : prop A) a q zs r q',
  avar A t l c p = Ok (a, q) -> avar_calls A (avar A) zs q = Ok (r, q') ->
  same_except [] [KWX] [] q q' /\
  (forall t' l' c', same_outcome (fun x y => fst x = fst y) (avar A t' l' c' q') (avar A t' l' c' p)).
Proof. exact avar_history. Qed.
Print Assumptions C19_history_independent.

(** Every value of a sequence of calls is the value of that call made first. *)
Theorem C19_each_as_if_first : forall (A : arith) zs (p : prop A) r q, avar_calls A (avar A) zs p = Ok (r, q) ->
  Forall2 (fun z a => exists p', avar A (fst (fst z)) (snd (fst z)) (snd z) p = Ok (a, p')) zs r.
Proof. exact avar_calls_each. Qed.
Print Assumptions C19_each_as_if_first.

Example C19_case : on_ok (avar_calls TA (avar TA)
    [(PI 0, PI 0, PI 0); (PI 1, PI 0, PI (-1)); (PI (-2), PI 1, L 1 2)] case_avar)
  (fun r => match fst r with
            | [a; b; c] => @n_ltb TA a b || @n_ltb TA b a
            | _ => false end) = true.
Proof. vm_compute. reflexivity. Qed.

(** * C20 *)
(** After a full run (lvar = 5 or more), the caller edits entries outside the kept ones and sets lvar to the
    documented level: same value and same dictionary as with lvar = 5. *)
Theorem C20_incremental_equals_full : forall (A : arith) t0 l0 c0 (p : prop A) a q p' lv t l c lv0,
  pz p LVAR = Some lv0 -> 4 < lv0 -> avar A t0 l0 c0 p = Ok (a, q) -> 1 <= lv <= 4 ->
  agree_on (kept_n lv) (kept_z lv) (kept_b lv) q p' ->
  (forall k, pz q KWX = Some k -> exists k', pz p' KWX = Some k' /\ k <= k') ->
  same_outcome (fun r s => fst r = fst s /\ same_dict (snd r) (snd s))
    (avar A t l c (setz p' LVAR lv)) (avar A t l c (setz p' LVAR 5)).
Proof. exact avar_incremental_run. Qed.
Print Assumptions C20_incremental_equals_full.

(** Another distance and reference attenuation with lvar = 1: the value changes, both ways agree. *)
Example C20_case : on_ok (avar TA (PI 0) (PI 0) (PI 1) case_avar) (fun r =>
  let p' := setn (setn (snd r) DIST (PI 120000)) AREF (PI 45) in
  on_ok (avar TA (PI 0) (PI 0) (PI 1) (setz p' LVAR 1)) (fun s =>
  on_ok (avar TA (PI 0) (PI 0) (PI 1) (setz p' LVAR 5)) (fun u =>
    @n_eqb TA (fst s) (fst u) && negb (@n_eqb TA (fst s) (fst r))))) = true.
Proof. vm_compute. reflexivity. Qed.

(** * C21 *)
Theorem C21_mode_decoding : forall (A : arith) t l c (p : prop A) a q lv m,
  avar A t l c p = Ok (a, q) -> pz p LVAR = Some lv -> 3 < lv -> pz p MDVAR = Some m ->
  let interf := 20 <=? m in
  let m1 := if interf then m - 20 else m in
  let pp := 10 <=? m1 in
  let m2 := if pp then m1 - 10 else m1 in
  pb q WS = Some interf /\ pb q WL = Some pp /\
  (interf = true -> pn q VS0 = Some (#0)%num) /\ (pp = true -> pn q SGL = Some (#0)%num) /\
  (if (0 <=? m2) && (m2 <=? 3) then pz q KDV = Some m2
   else pz q KDV = Some 0 /\ exists k, pz q KWX = Some k /\ 2 <= k).
Proof. exact avar_mode_api. Qed.
Print Assumptions C21_mode_decoding.

(** The documented reading: m + 10*pp + 20*interf. *)
Theorem C21_documented_codes : forall (A : arith) t l c (p : prop A) a q lv m (pp interf : bool),
  avar A t l c p = Ok (a, q) -> pz p LVAR = Some lv -> 3 < lv -> 0 <= m <= 3 ->
  pz p MDVAR = Some (m + (if pp then 10 else 0) + (if interf then 20 else 0)) ->
  pz q KDV = Some m /\ pb q WL = Some pp /\ pb q WS = Some interf.
Proof. exact avar_mode_doc. Qed.
Print Assumptions C21_documented_codes.

Example C21_case : on_ok (avar TA (PI 0) (PI 0) (PI 1) (setz case_avar MDVAR 32)) (fun r =>
  has_z (snd r) KDV 2 && has_b (snd r) WL true && has_b (snd r) WS true)
  && on_ok (avar TA (PI 0) (PI 0) (PI 1) (setz case_avar MDVAR 7)) (fun r => has_z (snd r) KDV 0 && has_z (snd r) KWX 2)
  = true.
Proof. vm_compute. reflexivity. Qed.

(** * C22 *)
Theorem C22_climate_row : forall (A : arith) t l c (p : prop A) a q lv k,
  avar A t l c p = Ok (a, q) -> pz p LVAR = Some lv -> 4 < lv -> pz p KLIM = Some k ->
  map (pn q) climate_keys = map Some (climate_row (climate_used k)) /\
  pz q KLIM = Some (climate_used k) /\
  (climate_used k <> k -> exists x, pz q KWX = Some x /\ 2 <= x).
Proof. exact avar_klim_api. Qed.
Print Assumptions C22_climate_row.

(** The table look-up itself (avar.py:66-93) completes for every integer climate code. *)
Theorem C22_lookup_total : forall (A : arith) (p : prop A) k x, pz p KLIM = Some k -> pz p KWX = Some x ->
  exists q, av_klim A p = Ok q.
Proof. exact av_klim_total_kwx. Qed.
Print Assumptions C22_lookup_total.

Example C22_case : forallb (fun k => on_ok (avar TA (PI 0) (PI 0) (PI 1) (setz case_avar KLIM k)) (fun r =>
    has_z (snd r) KLIM (climate_used k))) [-3; 0; 1; 4; 7; 8; 100] = true.
Proof. vm_compute. reflexivity. Qed.

(** * C25 *)
Theorem C25_single_message_ignores_time_and_location : forall (A : arith) t l c (p : prop A) a q,
  avar A t l c p = Ok (a, q) -> pz q KDV = Some 0 -> forall t' l', avar A t' l' c p = Ok (a, q).
Proof. exact avar_mode0. Qed.
Print Assumptions C25_single_message_ignores_time_and_location.

Theorem C25_accidental_mobile_ignore_location : forall (A : arith) t l c (p : prop A) a q,
  avar A t l c p = Ok (a, q) -> pz q KDV = Some 1 \/ pz q KDV = Some 2 -> forall l', avar A t l' c p = Ok (a, q).
Proof. exact avar_mode12. Qed.
Print Assumptions C25_accidental_mobile_ignore_location.

(** In broadcast mode each of the three deviates can change the value. *)
Theorem C25_broadcast_uses_all :
  exists (p : prop TA) a at' al ac q, pz q KDV = Some 3 /\
    avar TA (PI 1) (PI 1) (PI 1) p = Ok (a, q) /\
    (exists q', avar TA (PI 2) (PI 1) (PI 1) p = Ok (at', q')) /\ (at' =? a)%num = false /\
    (exists q', avar TA (PI 1) (PI 2) (PI 1) p = Ok (al, q')) /\ (al =? a)%num = false /\
    (exists q', avar TA (PI 1) (PI 1) (PI 2) p = Ok (ac, q')) /\ (ac =? a)%num = false.
Proof. exact broadcast_all. Qed.
Print Assumptions C25_broadcast_uses_all.

Example C25_case : forallb (fun m => on_ok (avar TA (PI 1) (PI 1) (PI 1) (setz case_avar MDVAR m)) (fun r =>
    has_z (snd r) KDV m)) [0; 1; 2; 3] = true.
Proof. vm_compute. reflexivity. Qed.
