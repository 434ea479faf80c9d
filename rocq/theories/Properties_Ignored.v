(** C73: entries the library does not look at, and what the statistics depend on.  Any arithmetic. *)
From Coq Require Import ZArith.
From Verif Require Import SpecDict SpecPrep SpecIgnored Scripts PfIgnored PfReads PfIgnored2 PfAvarCases PyFloat Cases Arith.

(** Dictionaries that differ only in frequency, permittivity, conductivity, refractivity at sea level, earth curvature, path length in
    km or polarisation: the same error or the same results, and the caller's settings stay as they are. *)
Theorem C73_lrprop : forall (A : arith) d (p q : prop A), but_settings p q ->
  same_outcome (fun p' q' => but_settings p' q' /\ settings_kept p p' /\ settings_kept q q') (lrprop A d p) (lrprop A d q).
Proof. exact ignored_lrprop. Qed.
Print Assumptions C73_lrprop.
Theorem C73_qlrpfl : forall (A : arith) (p q : prop A), but_settings p q ->
  same_outcome (fun p' q' => but_settings p' q' /\ settings_kept p p' /\ settings_kept q q') (qlrpfl A p) (qlrpfl A q).
Proof. exact ignored_qlrpfl. Qed.
Print Assumptions C73_qlrpfl.
Theorem C73_qlra : forall (A : arith) k0 k1 (p q : prop A), but_settings p q ->
  same_outcome (fun p' q' => but_settings p' q' /\ settings_kept p p' /\ settings_kept q q') (qlra A k0 k1 p) (qlra A k0 k1 q).
Proof. exact ignored_qlra. Qed.
Print Assumptions C73_qlra.
Theorem C73_avar : forall (A : arith) t l c (p q : prop A), but_settings p q ->
  same_outcome (fun r s => fst r = fst s /\ but_settings (snd r) (snd s) /\ settings_kept p (snd r) /\ settings_kept q (snd s)) (avar A t l c p) (avar A t l c q).
Proof. exact ignored_avar. Qed.
Print Assumptions C73_avar.

(** With a full refresh (lvar = 5 or more) avar's value depends on the deviates, on wave number, effective heights, distance,
    irregularity and reference attenuation, on climate and mode, and on nothing else that is left in the dictionary. *)
Theorem C73_avar_fresh : forall (A : arith) t l c (p q : prop A) lp lq,
  agree_on [WN; HE0; HE1; DIST; DH; AREF] [KLIM; MDVAR] [] p q -> has KWX p -> has KWX q ->
  pz p LVAR = Some lp -> pz q LVAR = Some lq -> (4 < lp)%Z -> (4 < lq)%Z ->
  same_outcome (fun r s => fst r = fst s) (avar A t l c p) (avar A t l c q).
Proof. exact avar_fresh. Qed.
Print Assumptions C73_avar_fresh.

(** The frequency in MHz changed tenfold without recomputing the wave number: not noticed. *)
Example C73_case : but_settings (setn case_avar FMHZ (PI 300)) (setn case_avar FMHZ (PI 3000)).
Proof. repeat split. intros k N. destruct k; try reflexivity. exfalso. apply N. cbn. tauto. Qed.
(** A dictionary and one with the frequency statistics of another run left in it. *)
Example C73_case_fresh : let q := setn (setn case_avar GM (PI 7)) SGTM (PI 100) in
  agree_on [WN; HE0; HE1; DIST; DH; AREF] [KLIM; MDVAR] [] case_avar q /\ has KWX q /\ pz q LVAR = Some 5%Z /\
  on_ok (avar TA (PI 1) (PI 0) (PI 1) q) (fun r => on_ok (avar TA (PI 1) (PI 0) (PI 1) case_avar) (fun s => @n_eqb TA (fst r) (fst s))) = true.
Proof.
  split; [|split; [eexists; reflexivity|split; [reflexivity | vm_compute; reflexivity]]].
  split; [|split; [|intros k []]]; intros k I; cbn in I; repeat (destruct I as [<-|I]; [reflexivity|]); destruct I.
Qed.
