(** Property theorems C09, C10: exchanging the terminals. *)
From Verif Require Import RInst SpecSwap LrProp PfSwap PfSwapCases PfRealRun PyFloat Cases.
Open Scope R_scope.

(** * C09 *)
(** Both directions give the same reference attenuation and the same secondary parameters. *)
Theorem C09_reciprocity : forall (d : R) (p q p' : prop RA), exchanged p q -> heights_nonzero p -> lrprop RA d p = Ok p' ->
  exists q', lrprop RA d q = Ok q' /\
    (forall k, In k [AREF; DLSA; DLA; THA; DIST; DMIN; EMD; AED; WIS; XAE; AK1; AK2; AEL; DX; EMS; AES] -> pn q' k = pn p' k) /\
    pn q' DLS0 = pn p' DLS1 /\ pn q' DLS1 = pn p' DLS0.
Proof. exact sw_aref. Qed.
Print Assumptions C09_reciprocity.
(** The results are exchanged dictionaries again, so that every later call stays reciprocal. *)
Theorem C09_exchanged : forall (d : R) (p q p' : prop RA), exchanged p q -> heights_nonzero p -> lrprop RA d p = Ok p' ->
  exists q', lrprop RA d q = Ok q' /\ exchanged p' q'.
Proof. exact sw_lrprop. Qed.
Print Assumptions C09_exchanged.
(** One direction fails exactly if the other does. *)
Theorem C09_fails : forall (d : R) (p q : prop RA), exchanged p q -> heights_nonzero p ->
  ((exists e, lrprop RA d p = Err e) <-> (exists e, lrprop RA d q = Err e)).
Proof. exact sw_fails. Qed.
Print Assumptions C09_fails.
Example C09_case : exchanged case_real case_real_exchanged /\ heights_nonzero case_real /\ exists p', lrprop RA 0 case_real = Ok p'.
Proof.
  split; [exact case_exchanged|]. split; [exact case_heights|]. destruct case_real_runs as (p' & H & _). exists p'. exact H.
Qed.

(** * C10 *)
(** Full statement: the error indicator does not depend on the direction.
    Proved: when no horizon is further than three times the smooth-earth horizon of either terminal; false in general. *)
Theorem C10_kwx_partial : forall (d : R) (p q p' q' : prop RA), exchanged p q -> pz q KWX = pz p KWX -> heights_nonzero p -> short_horizons p ->
  lrprop RA d p = Ok p' -> lrprop RA d q = Ok q' -> pz q' KWX = pz p' KWX.
Proof. exact sw_kwx. Qed.
Print Assumptions C10_kwx_partial.
(** A 1.5 m mobile and a 100 m mast: code 3 in one direction, 0 in the other. *)
Theorem C10_kwx_refuted : exists p q p' q' : prop TA, exchanged p q /\ pz p KWX = pz q KWX /\
  lrprop TA (PI 0) p = Ok p' /\ lrprop TA (PI 0) q = Ok q' /\ pz p' KWX = Some 3%Z /\ pz q' KWX = Some 0%Z.
Proof. exact kwx_exchange. Qed.
Print Assumptions C10_kwx_refuted.
Example C10_case : exchanged case_real case_real_exchanged /\ short_horizons case_real.
Proof. exact (conj case_exchanged case_short). Qed.
