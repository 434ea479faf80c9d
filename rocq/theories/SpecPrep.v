(** Specification vocabulary for the preparatory routines qlra and qlrpfl. *)
From Verif Require Export SpecDict.

Section SpecPrep.
Context {A : arith}.
Implicit Types p q : prop A.
Local Open Scope num_scope.

(** What qlrpfl is documented to read: antenna heights, earth curvature, wave number, surface
    refractivity and ground impedance; besides these the profile and the two control entries. *)
Definition qlrpfl_inputs : list nkey := [HG0; HG1; GME; WN; ENS; ZGR; ZGI].
Definition qlrpfl_controls : list zkey := [MDVARX; KLIMX].

(** Everything qlrpfl and lrprop compute whatever the regime of the path: path geometry, diffraction
    coefficients, the caches of adiff, the minimum distance. *)
Definition path_keys : list nkey :=
  [DIST; DH; HE0; HE1; DL0; DL1; THE0; THE1; DLS0; DLS1; DLSA; DLA; THA; DMIN; XAE; EMD; AED; WIS; ASCAT1;
   WD1; XD1; AFO; QK; XHT; AHT].
(** Written only on a line-of-sight path, only on a trans-horizon path. *)
Definition los_keys : list nkey := [AK1; AK2; AEL].
Definition scatter_keys : list nkey := [AD; RR; ETQ; H0S; EMS; DX; AES].

(** The distance was recognised as lying in one of the regimes (it always is unless a NaN occurs). *)
Definition regime_decided p : Prop :=
  pb p WSCAT = Some true \/ (pb p WLOS = Some true /\ exists d, pn p DIST = Some d /\ (d >? #0) = true).

(** Same results of a qlrpfl run, the entries kwx (cumulative) excepted; mdvar, klim, lvar are compared when
    the call sets them. *)
Definition same_results p q : Prop :=
  agree_on (path_keys ++ qlrpfl_inputs) [MDP] [WLOS; WSCAT] p q /\
  (pb p WLOS = Some true -> agree_on los_keys [] [] p q) /\
  (pb p WSCAT = Some true -> agree_on scatter_keys [] [] p q) /\
  (regime_decided p -> pn p AREF = pn q AREF) /\
  (forall m, pz p MDVARX = Some m -> (0 <= m)%Z -> pz p MDVAR = pz q MDVAR) /\
  (forall k, pz p KLIMX = Some k -> (0 < k)%Z -> pz p KLIM = pz q KLIM /\ pz p LVAR = pz q LVAR).

(** The entry is present. *)
Definition has (k : zkey) p : Prop := exists v, pz p k = Some v.
End SpecPrep.
