(** src/itmlogic/preparatory_subroutines. *)
From Verif Require Export LrProp Misc.

Section Prep.
Context (A : arith).
Notation num := (num A).
Notation prop := (prop A).
Notation profile := (profile A).
Local Open Scope num_scope.

(** zlsq1.py:64-65. *)
Definition avoid_zero_division (n : num) (d : Z) : res num :=
  if (d =? 0)%Z then Ok #0 else n /? #d.

(** zlsq1.py:33-39: the window [xa, xb] in sample indices.  FORTRAN's dim(xn, xb + 1) has become
    max(xn - xb + 1, 0). *)
Definition zlsq1_window (z : profile) (x1 x2 : num) : res (Z * Z) :=
  let xn := pf_np z in                                        (* :31 *)
  let! t := x1 /? pf_xi z in
  let! xa := n_trunc (pymax t #0) in                          (* :33 *)
  let! t := x2 /? pf_xi z in
  let! u := n_trunc (pymax (#xn - t) #0) in
  let xb := (xn - u)%Z in                                     (* :34 *)
  if (xb <=? xa)%Z then
    Ok (Z.max (xa - 1) 0, xn - Z.max (xn - xb + 1) 0)%Z       (* :36-38 *)
  else Ok (xa, xb).

(** zlsq1.py:50-54: the summation loop, [count] passes. *)
Fixpoint zlsq1_loop (z : profile) (count : nat) (ja : Z) (x a b : num) : res (num * num) :=
  match count with
  | O => Ok (a, b)
  | S c =>
      let ja := (ja + 1)%Z in
      let x := x + #1 in
      let! v := pflget z (ja + 2) in
      zlsq1_loop z c ja x (a + v) (b + v * x)
  end.

(** zlsq1.py:3-62.  [range(2, n+1)] has max(n-1, 0) elements. *)
Definition zlsq1 (z : profile) (x1 x2 : num) : res (num * num) :=
  let xn := pf_np z in
  let! (ja, jb) := zlsq1_window z x1 x2 in
  let n := (jb - ja)%Z in                                     (* :42 *)
  let xa := (jb - ja)%Z in                                    (* :43 *)
  let x := (-5) // 10 * #xa in                                (* :44 *)
  let xb := #jb + x in                                        (* :45 *)
  let! za := pflget z (ja + 2) in
  let! zb := pflget z (jb + 2) in
  let a := 5 // 10 * (za + zb) in                             (* :47 *)
  let b := 5 // 10 * (za - zb) * x in                         (* :48 *)
  let! (a, b) := zlsq1_loop z (Z.to_nat (n - 1)) ja x a b in
  let! a := avoid_zero_division a xa in                       (* :56 *)
  let! b := (b * #12) /? #((xa * xa + 2) * xa) in             (* :57 *)
  Ok (a - b * xb, a + b * (#xn - xb)).                        (* :59-62 *)

(** dlthx.py:46-48: [while xa > 0 and k < np].  The fuel np - k is exhausted only when k >= np, where the
    loop stops anyway. *)
Fixpoint dlthx_while (fuel : nat) (np : Z) (xa : num) (k : Z) : num * Z :=
  match fuel with
  | O => (xa, k)
  | S f => if (xa >? #0) && (k <? np)%Z then dlthx_while f np (xa - #1) (k + 1)%Z else (xa, k)
  end.

(** dlthx.py:50-53: one resampled height.  The guard is [k+2 <= len(pfl1)] (sic). *)
Definition dlthx_sample (f : profile) (k : Z) (xa : num) : res num :=
  let len := Z.of_nat (length (pfl_list f)) in
  if (k + 2 <=? len)%Z then
    let! u := pflget f (k + 2) in
    let! v := pflget f (k + 1) in
    Ok (u + (u - v) * xa)
  else
    let! u := pflget f (len - 1) in
    let! v := pflget f (len - 2) in
    Ok (u + (u - v) * xa).

(** dlthx.py:44-55: the resampling loop, [count] passes. *)
Fixpoint dlthx_loop (f : profile) (count : nat) (xa xb : num) (k : Z) : res (list num) :=
  match count with
  | O => Ok []
  | S c =>
      let '(xa, k) := dlthx_while (Z.to_nat (pf_np f - k)) (pf_np f) xa k in
      let! s := dlthx_sample f k xa in
      let! l := dlthx_loop f c (xa + xb) xb k in
      Ok (s :: l)
  end.

(** dlthx.py:61-63: subtract the fitted line. *)
Fixpoint dlthx_detrend (s : list num) (xa xb : num) : list num :=
  match s with
  | [] => []
  | v :: l => (v - xa) :: dlthx_detrend l (xa + xb) xb
  end.

(** dlthx.py:5-69. *)
Definition dlthx (f : profile) (x1 x2 : num) : res num :=
  let! xa := x1 /? pf_xi f in
  let! xb := x2 /? pf_xi f in                                 (* :26-27 *)
  if xb - xa >=? #2 then                                      (* :32 *)
    let! ka := n_trunc (1 // 10 * (xb - xa + #8)) in
    let ka := Z.min (Z.max 4 ka) 25 in                        (* :33-34 *)
    let n := (10 * ka - 5)%Z in
    let kb := (n - ka + 1)%Z in
    let sn := (n - 1)%Z in                                    (* :35-37 *)
    let! xb := (xb - xa) /? #sn in                            (* :40 *)
    let! k := n_trunc (xa + #1) in
    let xa := xa - #k in                                      (* :41-42 *)
    let! s := dlthx_loop f (Z.to_nat n) xa xb k in
    let! (xa, xb) := zlsq1 (Profile sn #1 s) #0 #sn in        (* :57 *)
    let! xb := (xb - xa) /? #sn in                            (* :59 *)
    let s := dlthx_detrend s xa xb in
    let! qa := qtile A s (ka - 1) in
    let! qb := qtile A s (kb - 1) in                          (* :65 *)
    let! t := (- (x2 - x1)) /? (50000 // 1) in
    let! e := m_exp t in
    (qa - qb) /? (#1 - 8 // 10 * e)                           (* :67 *)
  else Ok #0.

(** State of the hzns scan: the[0], the[1], dl[0], dl[1], sa, sb, wq. *)
Record hz : Type := Hz {
  hz_the0 : num; hz_the1 : num; hz_dl0 : num; hz_dl1 : num; hz_sa : num; hz_sb : num; hz_wq : bool }.

(** hzns.py:45-62: one pass of the scan for profile sample [z] = pfl[i+1]. *)
Definition hzns_step (xi za zb qc : num) (s : hz) (z : num) : res hz :=
  let sa := hz_sa s + xi in
  let sb := hz_sb s - xi in                                   (* :47-48 *)
  let q := z - (qc * sa + hz_the0 s) * sa - za in             (* :50 *)
  let! (the0, dl0, wq) :=
    (if q >? #0 then
       let! t := q /? sa in Ok (hz_the0 s + t, sa, false)     (* :52-56 *)
     else Ok (hz_the0 s, hz_dl0 s, hz_wq s)) in
  let! (the1, dl1) :=
    (if negb wq then                                          (* :58 *)
       let q := z - (qc * sb + hz_the1 s) * sb - zb in
       if q >? #0 then
         let! t := q /? sb in Ok (hz_the1 s + t, sb)          (* :60-62 *)
       else Ok (hz_the1 s, hz_dl1 s)
     else Ok (hz_the1 s, hz_dl1 s)) in
  Ok (Hz the0 the1 dl0 dl1 sa sb wq).

(** hzns.py:45: the scan over i = 2..np reads pfl[3..np+1]; [i] is the index i+1 into the list. *)
Fixpoint hzns_loop (f : profile) (xi za zb qc : num) (count : nat) (i : Z) (s : hz) : res hz :=
  match count with
  | O => Ok s
  | S c =>
      let! z := pflget f i in
      let! s := hzns_step xi za zb qc s z in
      hzns_loop f xi za zb qc c (i + 1) s
  end.

(** hzns.py:1-64; returns (the0, the1, dl0, dl1). *)
Definition hzns (f : profile) (dist hg0 hg1 gme : num) : res (num * num * num * num) :=
  let np := pf_np f in
  let xi := pf_xi f in
  let! z2 := pflget f 2 in
  let za := z2 + hg0 in                                       (* :30 *)
  let! zn := pflget f (np + 2) in
  let zb := zn + hg1 in                                       (* :31 *)
  let qc := 5 // 10 * gme in
  let q := qc * dist in
  let! t := (zb - za) /? dist in
  let the0 := t - q in
  let the1 := - t - q in                                      (* :34-36 *)
  if (2 <=? np)%Z then                                        (* :40 *)
    let! s := hzns_loop f xi za zb qc (Z.to_nat (np - 1)) 3
                (Hz the0 the1 dist dist #0 dist true) in
    Ok (hz_the0 s, hz_the1 s, hz_dl0 s, hz_dl1 s)
  else Ok (the0, the1, dist, dist).

(** [sqrt(2*he/gme) * exp(-0.07*sqrt(dh/max(he,5)))] (qlrpfl.py:46-49, 57-60). *)
Definition dl_smooth (he gme dh : num) : res num :=
  let! t := (#2 * he) /? gme in
  let! q := m_sqrt t in
  let! u := dh /? pymax he #5 in
  let! u := m_sqrt u in
  let! e := m_exp ((-7) // 100 * u) in
  Ok (q * e).

(** [(0.65*dh*(q/dl - 1) - 2*he)/q] (qlrpfl.py:64-67, qlra.py:54-57). *)
Definition the_smooth (he dl dh q : num) : res num :=
  let! t := q /? dl in
  (65 // 100 * dh * (t - #1) - #2 * he) /? q.

(** qlra.py:30-46: effective height of one terminal. *)
Definition qlra_he (kst : Z) (hg dh : num) : res num :=
  if (kst <=? 0)%Z then Ok hg                                 (* :30-32 *)
  else
    let q := if negb (kst =? 1)%Z then #9 else #4 in          (* :34-37 *)
    let! q := (if hg <? #5 then
                 let! s := m_sin (3141593 // 10000000 * hg) in Ok (q * s)
               else Ok q) in                                  (* :39-40 *)
    let! t := (#2 * hg) /? pymax (1 // 1000) dh in
    let! e := m_exp (- pymin #20 t) in
    Ok (hg + (#1 + q) * e).                                   (* :42-45 *)

(** qlra.py:47-57: horizon distance and angle of one terminal. *)
Definition qlra_hor (he dh gme : num) : res (num * num) :=
  let! t := (#2 * he) /? gme in
  let! q := np_sqrt t in                                      (* :47 *)
  let! u := dh /? pymax he #5 in
  let! u := np_sqrt u in
  let! e := m_exp ((-7) // 100 * u) in
  let dl := q * e in                                          (* :49-52 *)
  let! the := the_smooth he dl dh q in                        (* :54-57 *)
  Ok (dl, the).

(** qlra.py:59-68 / qlrpfl.py:77-86: mdp and the avar control entries. *)
Definition prep_control (mdp : Z) (p : prop) : res prop :=
  let p := setz p MDP mdp in
  let! lvar := getz p LVAR in
  let p := setz p LVAR (Z.max lvar 3) in
  let! mdvarx := getz p MDVARX in
  let! p :=
    (if (0 <=? mdvarx)%Z then
       let p := setz p MDVAR mdvarx in
       let! lvar := getz p LVAR in
       Ok (setz p LVAR (Z.max lvar 4))
     else Ok p) in
  let! klimx := getz p KLIMX in
  if (0 <? klimx)%Z then Ok (setz (setz p KLIM klimx) LVAR 5) else Ok p.

(** qlra.py:4-70.  kst = [kst0, kst1]. *)
Definition qlra (kst0 kst1 : Z) (p : prop) : res prop :=
  let! hg0 := getn p HG0 in
  let! dh := getn p DH in
  let! gme := getn p GME in
  let! he0 := qlra_he kst0 hg0 dh in
  let! (dl0, the0) := qlra_hor he0 dh gme in                  (* :28-57, j = 0 *)
  let! hg1 := getn p HG1 in
  let! he1 := qlra_he kst1 hg1 dh in
  let! (dl1, the1) := qlra_hor he1 dh gme in                  (* :28-57, j = 1 *)
  let p := setn (setn p HE0 he0) HE1 he1 in
  let p := setn (setn p DL0 dl0) DL1 dl1 in
  let p := setn (setn p THE0 the0) THE1 the1 in
  prep_control 1 p.

(** qlrpfl.py:39-67: line-of-sight profile; returns he, dl, the of both terminals.
    The receiver elevation is read at pfl[np+1] (sic), :43. *)
Definition qlrpfl_los (f : profile) (dist hg0 hg1 gme dh xl0 xl1 : num)
  : res ((num * num) * (num * num) * (num * num)) :=
  let np := pf_np f in
  let! (za, zb) := zlsq1 f xl0 xl1 in                         (* :41 *)
  let! z0 := pflget f 2 in
  let he0 := hg0 + pymax (z0 - za) #0 in                      (* :42 *)
  let! zn := pflget f (np + 1) in
  let he1 := hg1 + pymax (zn - zb) #0 in                      (* :43 *)
  let! dl0 := dl_smooth he0 gme dh in
  let! dl1 := dl_smooth he1 gme dh in                         (* :45-49 *)
  let q := dl0 + dl1 in                                       (* :51 *)
  let! (he0, he1, dl0, dl1) :=
    (if q <=? dist then                                       (* :53 *)
       let! t := dist /? q in
       let! q := n_powZ t 2 in                                (* :54 *)
       let he0 := he0 * q in
       let! dl0 := dl_smooth he0 gme dh in
       let he1 := he1 * q in
       let! dl1 := dl_smooth he1 gme dh in                    (* :55-60 *)
       Ok (he0, he1, dl0, dl1)
     else Ok (he0, he1, dl0, dl1)) in
  let! t := (#2 * he0) /? gme in
  let! q := m_sqrt t in
  let! the0 := the_smooth he0 dl0 dh q in
  let! t := (#2 * he1) /? gme in
  let! q := m_sqrt t in
  let! the1 := the_smooth he1 dl1 dh q in                     (* :62-67 *)
  Ok ((he0, he1), (dl0, dl1), (the0, the1)).

(** qlrpfl.py:69-75: obstructed profile; effective heights only. *)
Definition qlrpfl_obs (f : profile) (dist hg0 hg1 dl0 dl1 xl0 xl1 : num) : res (num * num) :=
  let np := pf_np f in
  let! (za, _) := zlsq1 f xl0 (9 // 10 * dl0) in              (* :69 *)
  let! (_, zb) := zlsq1 f (dist - 9 // 10 * dl1) xl1 in       (* :71 *)
  let! z0 := pflget f 2 in
  let! zn := pflget f (np + 2) in
  Ok (hg0 + pymax (z0 - za) #0, hg1 + pymax (zn - zb) #0).    (* :73-75 *)

(** qlrpfl.py:23-75: geometry of the path, everything before the control entries. *)
Definition qlrpfl_geom (p : prop) : res prop :=
  let! f := getpfl p in
  let dist := #(pf_np f) * pf_xi f in
  let p := setn p DIST dist in                                (* :23 *)
  let! hg0 := getn p HG0 in
  let! hg1 := getn p HG1 in
  let! gme := getn p GME in
  let! (the0, the1, dl0, dl1) := hzns f dist hg0 hg1 gme in   (* :27-29 *)
  let xl0 := pymin (#15 * hg0) (1 // 10 * dl0) in
  let xl1 := pymin (#15 * hg1) (1 // 10 * dl1) in             (* :31-33 *)
  let xl1 := dist - xl1 in                                    (* :35 *)
  let! dh := dlthx f xl0 xl1 in
  let p := setn p DH dh in                                    (* :37 *)
  let! ((he0, he1), (dl0, dl1), (the0, the1)) :=
    (if 15 // 10 * dist <=? dl0 + dl1 then                    (* :39 *)
       qlrpfl_los f dist hg0 hg1 gme dh xl0 xl1
     else
       let! h := qlrpfl_obs f dist hg0 hg1 dl0 dl1 xl0 xl1 in
       Ok (h, (dl0, dl1), (the0, the1))) in
  let p := setn (setn p HE0 he0) HE1 he1 in
  let p := setn (setn p DL0 dl0) DL1 dl1 in
  Ok (setn (setn p THE0 the0) THE1 the1).

(** qlrpfl.py:7-90. *)
Definition qlrpfl (p : prop) : res prop :=
  let! p := qlrpfl_geom p in
  let! p := prep_control (-1) p in
  lrprop A #0 p.                                              (* :88 *)

(** qlrps.py:4-47; returns wn, gme, ens, zgnd. *)
Definition qlrps (fmhz zsys en0 : num) (ipol : Z) (eps sgm : num) : res (num * num * num * cplx A) :=
  let gma := 157 // 1000000000 in
  let! wn := fmhz /? (477 // 10) in                           (* :31 *)
  let! ens :=
    (if negb (zsys =? #0) then
       let! t := (- zsys) /? #9460 in
       let! e := m_exp t in Ok (en0 * e)
     else Ok en0) in                                          (* :32-35 *)
  let! t := ens /? (1793 // 10) in
  let! e := m_exp t in
  let gme := gma * (#1 - 4665 // 100000 * e) in               (* :37 *)
  let! t := (37662 // 100 * sgm) /? wn in
  let zq := (eps, t) in                                       (* :39 *)
  let! zgnd := n_csqrt (eps - #1) t in                        (* :41 *)
  let! zgnd := (if negb (ipol =? 0)%Z then c_div zgnd zq else Ok zgnd) in   (* :43-45 *)
  Ok (wn, gme, ens, zgnd).

End Prep.
