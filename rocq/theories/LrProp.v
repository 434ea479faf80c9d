(** src/itmlogic/lrprop.py. *)
From Verif Require Export Atten.

Section LrProp.
Context (A : arith).
Notation num := (num A).
Notation prop := (prop A).
Local Open Scope num_scope.

(** [prop['kwx'] = max(prop['kwx'], c)] when [b]. *)
Definition warn_max (b : bool) (c : Z) (k : Z) : Z := if b then Z.max k c else k.
(** [prop['kwx'] = c] when [b]. *)
Definition warn_set (b : bool) (c : Z) (k : Z) : Z := if b then c else k.

(** lrprop.py:54-81: range checks of the set-up.  (kwx is read and written through a local variable; the
    tests do not depend on kwx.) *)
Definition lr_checks (p : prop) : res prop :=
  let! wn := getn p WN in
  let! kwx := getz p KWX in
  let kwx := warn_max ((wn <? 838 // 1000) || (wn >? #210)) 1 kwx in              (* :54-55 *)
  let! hg0 := getn p HG0 in
  let kwx := warn_max ((hg0 <? #1) || (hg0 >? #1000)) 1 kwx in                    (* :57-58 *)
  let! hg1 := getn p HG1 in
  let kwx := warn_max ((hg1 <? #1) || (hg1 >? #1000)) 1 kwx in                    (* :60-61 *)
  let! the0 := getn p THE0 in
  let! the1 := getn p THE1 in
  let! dl0 := getn p DL0 in
  let! dl1 := getn p DL1 in
  let! dls0 := getn p DLS0 in
  let! dls1 := getn p DLS1 in
  let kwx := warn_max ((n_abs the0 >? 2 // 10) || (dl0 <? 1 // 10 * dls0)
                       || (dl1 >? #3 * dls0)) 3 kwx in                            (* :63-66, sic: dl[1] *)
  let kwx := warn_max ((n_abs the1 >? 2 // 10) || (dl1 <? 1 // 10 * dls1)
                       || (dl1 >? #3 * dls1)) 3 kwx in                            (* :68-71 *)
  let! ens := getn p ENS in
  let! gme := getn p GME in
  let! zr := getn p ZGR in
  let! zi := getn p ZGI in
  let kwx := warn_set ((ens <? #250) || (ens >? #400) || (gme <? 75 // 1000000000)
                       || (gme >? 250 // 1000000000) || (zr <? n_abs zi)
                       || (wn <? 419 // 1000) || (wn >? #420)) 4 kwx in           (* :73-76 *)
  let kwx := warn_set ((hg0 <? 5 // 10) || (hg0 >? #3000)) 4 kwx in               (* :78-79 *)
  let kwx := warn_set ((hg1 <? 5 // 10) || (hg1 >? #3000)) 4 kwx in               (* :81-82 *)
  Ok (setz p KWX kwx).

(** lrprop.py:37-52: smooth-earth horizon distances and bending angle, flags cleared. *)
Definition lr_geom (p : prop) : res prop :=
  let! he0 := getn p HE0 in
  let! he1 := getn p HE1 in
  let! gme := getn p GME in
  let! t := (#2 * he0) /? gme in
  let! dls0 := m_sqrt t in
  let! t := (#2 * he1) /? gme in
  let! dls1 := m_sqrt t in
  let p := setn (setn p DLS0 dls0) DLS1 dls1 in               (* :37-40 *)
  let p := setn p DLSA (dls0 + dls1) in                       (* :42 *)
  let! dl0 := getn p DL0 in
  let! dl1 := getn p DL1 in
  let dla := dl0 + dl1 in
  let p := setn p DLA dla in                                  (* :44 *)
  let! the0 := getn p THE0 in
  let! the1 := getn p THE1 in
  let p := setn p THA (pymax (the0 + the1) (- dla * gme)) in  (* :46-49 *)
  Ok (setb (setb p WLOS false) WSCAT false).                  (* :51-52 *)

(** lrprop.py:84-102: diffraction line (emd, aed), wis, ascat1. *)
Definition lr_diff (third : num) (p : prop) : res prop :=
  let! he0 := getn p HE0 in
  let! he1 := getn p HE1 in
  let! dmin := n_abs (he0 - he1) /? (2 // 10) in
  let p := setn p DMIN dmin in                                (* :84 *)
  let! (_, p) := adiff A #0 p in                              (* :86 *)
  let! wn := getn p WN in
  let! gme := getn p GME in
  let! g2 := n_powZ gme 2 in
  let! xae := n_pow (wn * g2) (- third) in
  let p := setn p XAE xae in                                  (* :88 *)
  let! dlsa := getn p DLSA in
  let! dla := getn p DLA in
  let d3 := pymax dlsa (13787 // 10000 * xae + dla) in        (* :90 *)
  let d4 := d3 + 27574 // 10000 * xae in                      (* :91 *)
  let! (a3, p) := adiff A d3 p in
  let! (a4, p) := adiff A d4 p in                             (* :92-93 *)
  let! emd := (a4 - a3) /? (d4 - d3) in
  let p := setn p EMD emd in                                  (* :95 *)
  let p := setn p AED (a3 - emd * d3) in                      (* :97 *)
  let! dh := getn p DH in
  let! t := (wn * dh) /? pymax (10000 // 1) dlsa in
  let! wis := (21 // 1000) /? (21 // 1000 + t) in
  let p := setn p WIS wis in                                  (* :98-101 *)
  Ok (setn p ASCAT1 #0).                                      (* :102 *)

(** lrprop.py:35-102: the set-up done when mdp != 0. *)
Definition lr_setup (third : num) (p : prop) : res prop :=
  let! p := lr_geom p in
  let! p := lr_checks p in
  lr_diff third p.

(** lrprop.py:104-114: distance bookkeeping and distance checks. *)
Definition lr_dist (d : num) (p : prop) : res prop :=
  let! mdp := getz p MDP in
  let p := if (0 <=? mdp)%Z then setn (setz p MDP 0) DIST d else p in     (* :104-106 *)
  let! dist := getn p DIST in
  if dist >? #0 then
    let! kwx := getz p KWX in
    let kwx := warn_max (dist >? 1000000 // 1) 1 kwx in                       (* :109-110 *)
    let! dmin := getn p DMIN in
    let kwx := warn_max (dist <? dmin) 3 kwx in                           (* :111-112 *)
    let kwx := warn_set ((dist <? 1000 // 1) || (dist >? 2000000 // 1)) 4 kwx in  (* :113-114 *)
    Ok (setz p KWX kwx)
  else Ok p.

(** lrprop.py:131-149: the log fit through (d0,a0), (d1,a1), (d2,a2); [Some (ak1, ak2)] when wq. *)
Definition lr_fit (aed emd d0 d1 d2 a1 a2 : num) (p : prop) : res (option (num * num)) :=
  if d0 <? d1 then
    let! a0 := alos A d0 p in                                 (* :133 *)
    let! t := d2 /? d0 in
    let! q := np_log t in                                     (* :134 *)
    let! t := d1 /? d0 in
    let! l := np_log t in
    let! f := ((d2 - d0) * (a1 - a0) - (d1 - d0) * (a2 - a0)) /?
              ((d2 - d0) * l - (d1 - d0) * q) in
    let ak2 := pymax #0 f in                                  (* :135-139 *)
    if (aed >=? #0) || (ak2 >? #0) then                       (* :141-143 *)
      let! ak1 := (a2 - a0 - ak2 * q) /? (d2 - d0) in         (* :144 *)
      if ak1 <? #0 then
        let! ak2 := pymax (a2 - a0) #0 /? q in                (* :146-147 *)
        if ak2 =? #0 then Ok (Some (emd, ak2)) else Ok (Some (#0, ak2))   (* :148-149 *)
      else Ok (Some (ak1, ak2))
    else Ok None
  else Ok None.

(** lrprop.py:119-157: line-of-sight coefficients ak1, ak2, ael (set-up done once per wlos = 0). *)
Definition lr_los_coeffs (p : prop) : res (num * num * num) :=
  let! d2 := getn p DLSA in                                   (* :119 *)
  let! aed := getn p AED in
  let! emd := getn p EMD in
  let a2 := aed + d2 * emd in                                 (* :120 *)
  let! wn := getn p WN in
  let! he0 := getn p HE0 in
  let! he1 := getn p HE1 in
  let d0 := 1908 // 1000 * wn * he0 * he1 in                  (* :121 *)
  let! dla := getn p DLA in
  let! (d0, d1) :=
    (if aed >=? #0 then
       let d0 := pymin d0 (5 // 10 * dla) in                  (* :124 *)
       Ok (d0, d0 + 25 // 100 * (dla - d0))                   (* :125 *)
     else
       let! t := (- aed) /? emd in
       Ok (d0, pymax t (25 // 100 * dla))) in                 (* :127 *)
  let! a1 := alos A d1 p in                                   (* :129 *)
  let! fit := lr_fit aed emd d0 d1 d2 a1 a2 p in
  let! (ak1, ak2) :=
    (match fit with
     | Some c => Ok c
     | None =>                                                (* :151-155 *)
         let! ak1 := pymax (a2 - a1) #0 /? (d2 - d1) in
         if ak1 =? #0 then Ok (emd, #0) else Ok (ak1, #0)
     end) in
  let! l := np_log d2 in
  Ok (ak1, ak2, a2 - ak1 * d2 - ak2 * l).                     (* :157 *)

(** lrprop.py:116-163.  Note that the assignment of aref (:160-163) is inside [if wlos == 0]. *)
Definition lr_los (p : prop) : res prop :=
  let! dist := getn p DIST in
  let! dlsa := getn p DLSA in
  if dist <? dlsa then
    let! wlos := getb p WLOS in
    if wlos then Ok p
    else
      let! (ak1, ak2, ael) := lr_los_coeffs p in
      let p := setn (setn (setn p AK1 ak1) AK2 ak2) AEL ael in
      let p := setb p WLOS true in                            (* :158 *)
      if dist >? #0 then
        let! l := np_log dist in
        Ok (setn p AREF (ael + ak1 * dist + ak2 * l))         (* :160-163 *)
      else Ok p
  else Ok p.

(** lrprop.py:168-207: scatter coefficients (set-up done once per wscat = 0). *)
Definition lr_scat_setup (p : prop) : res prop :=
  let! dl0 := getn p DL0 in
  let! dl1 := getn p DL1 in
  let! he0 := getn p HE0 in
  let! he1 := getn p HE1 in
  let ad := dl0 - dl1 in                                      (* :169 *)
  let! rr := he1 /? he0 in                                    (* :170 *)
  let! (ad, rr) :=
    (if ad <? #0 then let! rr := #1 /? rr in Ok (- ad, rr) else Ok (ad, rr)) in   (* :171-173 *)
  let p := setn (setn p AD ad) RR rr in
  let! ens := getn p ENS in
  let p := setn p ETQ ((567 // 100000000 * ens - 232 // 100000) * ens + 31 // 1000) in   (* :175-178 *)
  let p := setn p H0S #(-15) in                               (* :180 *)
  let! dla := getn p DLA in
  let d5 := dla + 200000 // 1 in                                  (* :182 *)
  let d6 := d5 + 200000 // 1 in                                   (* :183 *)
  let! p := ascat A d6 p in
  let! a6 := getn p ASCAT1 in
  let! p := ascat A d5 p in
  let! a5 := getn p ASCAT1 in                                 (* :185-188 *)
  let! emd := getn p EMD in
  let! aed := getn p AED in
  let! p :=
    (if a5 <? #1000 then
       let! ems := (a6 - a5) /? (200000 // 1) in                    (* :191 *)
       let p := setn p EMS ems in
       let! dlsa := getn p DLSA in
       let! xae := getn p XAE in
       let! wn := getn p WN in
       let! l := np_log (477 // 10 * wn) in
       let! t := (a5 - aed - ems * d5) /? (emd - ems) in
       let dx := pymax (pymax dlsa (dla + 3 // 10 * xae * l)) t in       (* :192-196 *)
       let p := setn p DX dx in
       Ok (setn p AES ((emd - ems) * dx + aed))               (* :197-200 *)
     else
       Ok (setn (setn (setn p EMS emd) AES aed) DX (10000000 // 1))) in        (* :203-205 *)
  Ok (setb p WSCAT true).                                     (* :207 *)

(** lrprop.py:166-212. *)
Definition lr_scat (p : prop) : res prop :=
  let! dist := getn p DIST in
  let! dlsa := getn p DLSA in
  if (dist <=? #0) || (dist >=? dlsa) then
    let! wscat := getb p WSCAT in
    let! p := (if wscat then Ok p else lr_scat_setup p) in
    let! dx := getn p DX in
    if dist >? dx then
      let! aes := getn p AES in
      let! ems := getn p EMS in
      Ok (setn p AREF (aes + ems * dist))                     (* :210 *)
    else
      let! aed := getn p AED in
      let! emd := getn p EMD in
      Ok (setn p AREF (aed + emd * dist))                     (* :212 *)
  else Ok p.

(** lrprop.py:8-216. *)
Definition lrprop (d : num) (p : prop) : res prop :=
  let! third := #1 /? #3 in                                   (* :33 *)
  let! mdp := getz p MDP in
  let! p := (if negb (mdp =? 0)%Z then lr_setup third p else Ok p) in
  let! p := lr_dist d p in
  let! p := lr_los p in
  let! p := lr_scat p in
  let! aref := getn p AREF in
  Ok (setn p AREF (pymax aref #0)).                           (* :214 *)

End LrProp.
