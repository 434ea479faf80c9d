(** The reference attenuation as a function of distance: three regimes over exact reals. *)
From Verif Require Export SpecDict RInst.
Open Scope R_scope.

(** Coefficients of the three branches: line of sight ael + ak1*d + ak2*ln d below dlsa, diffraction line
    aed + emd*d up to dx, scatter line aes + ems*d beyond. *)
Record branches : Type := Branches {
  b_ael : R; b_ak1 : R; b_ak2 : R; b_dlsa : R; b_aed : R; b_emd : R; b_dx : R; b_aes : R; b_ems : R }.
Definition los_curve (c : branches) (d : R) : R := b_ael c + b_ak1 c * d + b_ak2 c * ln d.
Definition diff_line (c : branches) (d : R) : R := b_aed c + b_emd c * d.
Definition scat_line (c : branches) (d : R) : R := b_aes c + b_ems c * d.
Definition reference (c : branches) (d : R) : R :=
  Rmax 0 (if Rlt_dec d (b_dlsa c) then los_curve c d
          else if Rle_dec d (b_dx c) then diff_line c d else scat_line c d).

(** The entries of a dictionary that hold them. *)
Definition los_entries (p : prop RA) (c : branches) : Prop :=
  pn p AEL = Some (b_ael c) /\ pn p AK1 = Some (b_ak1 c) /\ pn p AK2 = Some (b_ak2 c).
Definition diff_entries (p : prop RA) (c : branches) : Prop :=
  pn p DLSA = Some (b_dlsa c) /\ pn p AED = Some (b_aed c) /\ pn p EMD = Some (b_emd c).
Definition scat_entries (p : prop RA) (c : branches) : Prop :=
  pn p DX = Some (b_dx c) /\ pn p AES = Some (b_aes c) /\ pn p EMS = Some (b_ems c).

(** The sample points of the line-of-sight fit (wave number wn, effective heights, sum of horizon distances
    dla, diffraction line aed + emd*d). *)
Definition los_d0 (wn he0 he1 dla aed : R) : R :=
  let d := 1.908 * wn * he0 * he1 in if Rle_dec 0 aed then Rmin d (0.5 * dla) else d.
Definition los_d1 (wn he0 he1 dla aed emd : R) : R :=
  if Rle_dec 0 aed then let d0 := los_d0 wn he0 he1 dla aed in d0 + 0.25 * (dla - d0)
  else Rmax (- aed / emd) (0.25 * dla).
