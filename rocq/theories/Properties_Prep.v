(** Property theorems C42, C44: control entries and re-entrancy of the preparatory routines. *)
From Verif Require Import RInst SpecPrep Scripts PfPrepGen PfPrepReal PyFloat Cases.
Open Scope Z_scope.

(** * C42 *)
Theorem C42_qlra_control : forall (A : arith) k0 k1 (p q : prop A), qlra A k0 k1 p = Ok q ->
  exists lv mx kx, pz p LVAR = Some lv /\ pz p MDVARX = Some mx /\ pz p KLIMX = Some kx /\
    pz q MDP = Some 1 /\
    pz q LVAR = Some (if 0 <? kx then 5 else Z.max lv (if 0 <=? mx then 4 else 3)) /\
    pz q MDVAR = (if 0 <=? mx then Some mx else pz p MDVAR) /\
    pz q KLIM = (if 0 <? kx then Some kx else pz p KLIM) /\
    same_except [HE0; HE1; DL0; DL1; THE0; THE1] [MDP; LVAR; MDVAR; KLIM] [] p q.
Proof. exact qlra_control. Qed.
Print Assumptions C42_qlra_control.

Theorem C42_qlrpfl_control : forall (A : arith) (p q : prop A), qlrpfl A p = Ok q ->
  exists lv mx kx, pz p LVAR = Some lv /\ pz p MDVARX = Some mx /\ pz p KLIMX = Some kx /\
    pz q MDP = Some (-1) /\
    pz q LVAR = Some (if 0 <? kx then 5 else Z.max lv (if 0 <=? mx then 4 else 3)) /\
    pz q MDVAR = (if 0 <=? mx then Some mx else pz p MDVAR) /\
    pz q KLIM = (if 0 <? kx then Some kx else pz p KLIM) /\
    same_except (AREF :: path_keys ++ los_keys ++ scatter_keys) [KWX; MDP; LVAR; MDVAR; KLIM] [WLOS; WSCAT] p q.
Proof. exact qlrpfl_control. Qed.
Print Assumptions C42_qlrpfl_control.

Example C42_case : on_ok (qlra TA 0 2 case_area) (fun q => has_z q MDP 1 && has_z q LVAR 5 && has_z q MDVAR 3 && has_z q KLIM 5)
  && on_ok (qlrpfl TA case_p2p) (fun q => has_z q MDP (-1) && has_z q LVAR 5 && has_z q MDVAR 11 && has_z q KLIM 5)
  && on_ok (qlrpfl TA (setz (setz case_p2p MDVARX (-1)) LVAR 0)) (fun q => has_z q MDP (-1) && has_z q LVAR 3) = true.
Proof. vm_compute. reflexivity. Qed.

(** * C44 *)
(** Two dictionaries with the same profile, inputs and controls, whatever else they contain. *)
Theorem C44_qlrpfl_depends_on_inputs : forall (A : arith) (p q p' : prop A), (@n_Z A 0 =? #0)%num = true ->
  agree_on qlrpfl_inputs qlrpfl_controls [] p q -> ppfl p = ppfl q ->
  has KWX p -> has KWX q -> has LVAR p -> has LVAR q -> qlrpfl A p = Ok p' ->
  (regime_decided p' -> exists q', qlrpfl A q = Ok q' /\ same_results p' q') /\
  (forall q', qlrpfl A q = Ok q' -> same_results p' q').
Proof. exact qlrpfl_same. Qed.
Print Assumptions C44_qlrpfl_depends_on_inputs.

Theorem C44_qlrpfl_twice : forall (A : arith) (p p' : prop A), (@n_Z A 0 =? #0)%num = true -> has KWX p ->
  qlrpfl A p = Ok p' -> regime_decided p' -> exists p'', qlrpfl A p' = Ok p'' /\ same_results p' p''.
Proof. exact qlrpfl_again. Qed.
Print Assumptions C44_qlrpfl_twice.

(** Over exact reals the regime is always recognised. *)
Theorem C44_qlrpfl_depends_on_inputs_real : forall p q p' : prop RA,
  agree_on qlrpfl_inputs qlrpfl_controls [] p q -> ppfl p = ppfl q ->
  has KWX p -> has KWX q -> has LVAR p -> has LVAR q -> qlrpfl RA p = Ok p' ->
  exists q', qlrpfl RA q = Ok q' /\ same_results p' q'.
Proof. exact qlrpfl_same_real. Qed.
Print Assumptions C44_qlrpfl_depends_on_inputs_real.

Theorem C44_qlrpfl_twice_real : forall p p' : prop RA, has KWX p -> qlrpfl RA p = Ok p' ->
  exists p'', qlrpfl RA p' = Ok p'' /\ same_results p' p''.
Proof. exact qlrpfl_again_real. Qed.
Print Assumptions C44_qlrpfl_twice_real.

(** A line-of-sight and a trans-horizon path, run twice. *)
Example C44_case : forallb (fun p : prop TA => on_ok (qlrpfl TA p) (fun q => on_ok (qlrpfl TA q) (fun r =>
    has_n q AREF (fun a => has_n r AREF (fun b => @n_eqb TA a b)) && has_b r (if is_ok (getn q DX) then WSCAT else WLOS) true)))
    [case_los; case_far] = true.
Proof. vm_compute. reflexivity. Qed.
