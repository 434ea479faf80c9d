(** src/itmlogic/{diffraction,los,scatter}_attenuation. *)
From Verif Require Export Dict.

Section Atten.
Context (A : arith).
Notation num := (num A).
Notation prop := (prop A).
Local Open Scope num_scope.

(** diffraction_attenuation/aknfe.py:4-30. *)
Definition aknfe (v2 : num) : res num :=
  if v2 <? 576 // 100 then
    let v2 := if v2 <=? #0 then 1 // 100000 else v2 in        (* :22-23 *)
    let! s := m_sqrt v2 in
    Ok (602 // 100 + 911 // 100 * s - 127 // 100 * v2)
  else
    let! l := np_log v2 in
    Ok (12953 // 1000 + 4343 // 1000 * l).

(** diffraction_attenuation/fht.py:4-44. *)
Definition fht (x pk : num) : res num :=
  if x <? #200 then
    let! l := np_log pk in
    let w := - l in                                           (* :27 *)
    let! c :=                                                 (* :29, short-circuit [or] *)
      (if pk <? 1 // 100000 then Ok true
       else let! w3 := n_powZ w 3 in Ok (x * w3 >? #5495)) in
    if c : bool then
      if x >? #1 then
        let! lx := np_log x in
        Ok (17372 // 1000 * lx + #(-117))                     (* :32 *)
      else Ok #(-117)
    else
      let! x2 := n_powZ x 2 in
      let! t := (25 // 1000000 * x2) /? pk in
      Ok (t - 8686 // 1000 * w - #15)                         (* :35 *)
  else
    let! lx := np_log x in
    let f := 5751 // 100000 * x - 4343 // 1000 * lx in        (* :38 *)
    if x <? #2000 then
      let! e := m_exp ((-5) // 1000 * x) in
      let w := 134 // 10000 * x * e in                        (* :41 *)
      let! lx := np_log x in
      Ok ((#1 - w) * f + w * (17372 // 1000 * lx - #117))     (* :42 *)
    else Ok f.

(** diffraction_attenuation/adiff.py:47-48, also los_attenuation/alos.py:23-25:
    [q = (1 - 0.8*exp(-d/50e3)) * dh], the terrain irregularity scaled to distance d. *)
Definition dh_at (d dh : num) : res num :=
  let! u := (- d) /? (50000 // 1) in
  let! e := m_exp u in
  Ok ((#1 - 8 // 10 * e) * dh).

(** [0.78 * q * exp(-(q/16)**0.25)] (adiff.py:48, alos.py:25). *)
Definition rough (q : num) : res num :=
  let! t := q /? #16 in
  let! r := n_pow t (25 // 100) in
  let! e := m_exp (- r) in
  Ok (78 // 100 * q * e).

(** One pass of the loop adiff.py:59-67 for terminal [j] (dl = prop['dl'][j], he = prop['he'][j]):
    returns the increments of xht and aht. *)
Definition adiff_term (third qk wn dl he : num) : res (num * num) :=
  let! dl2 := n_powZ dl 2 in
  let! a := (5 // 10 * dl2) /? he in
  let! wa := n_pow (a * wn) third in
  let! pk := qk /? wa in
  let! q := ((1607 // 1000 - pk) * #151 * wa * dl) /? a in
  let! f := fht q pk in
  Ok (q, f).

(** diffraction_attenuation/adiff.py:7-102, branch [d == 0] (:36-69). *)
Definition adiff_init (third : num) (p : prop) : res prop :=
  let! hg0 := getn p HG0 in
  let! hg1 := getn p HG1 in
  let q := hg0 * hg1 in                                       (* :37 *)
  let! he0 := getn p HE0 in
  let! he1 := getn p HE1 in
  let qk := he0 * he1 - q in                                  (* :39 *)
  let! mdp := getz p MDP in
  let q := if (mdp <? 0)%Z then q + #10 else q in             (* :41-42 *)
  let! t := qk /? q in
  let! wd1 := m_sqrt (#1 + t) in                              (* :44 *)
  let p := setn p WD1 wd1 in
  let! dla := getn p DLA in
  let! tha := getn p THA in
  let! gme := getn p GME in
  let! t := tha /? gme in
  let p := setn p XD1 (dla + t) in                            (* :45 *)
  let! dlsa := getn p DLSA in
  let! dh := getn p DH in
  let! q := dh_at dlsa dh in                                  (* :47 *)
  let! q := rough q in                                        (* :48 *)
  let! wn := getn p WN in
  let! l := np_log (#1 + 477 // 1000000 * hg0 * hg1 * wn * q) in
  let p := setn p AFO (pymin #15 (2171 // 1000 * l)) in       (* :50-53 *)
  let! zr := getn p ZGR in
  let! zi := getn p ZGI in
  let! za := c_abs (zr, zi) in
  let! qk := #1 /? za in
  let p := setn p QK qk in                                    (* :55 *)
  let! dl0 := getn p DL0 in
  let! (q0, f0) := adiff_term third qk wn dl0 he0 in         (* :59-67, j = 0 *)
  let! dl1 := getn p DL1 in
  let! (q1, f1) := adiff_term third qk wn dl1 he1 in         (* :59-67, j = 1 *)
  let p := setn p XHT (#0 + q0 + q1) in                       (* :57, :66 *)
  let p := setn p AHT (#20 + f0 + f1) in                      (* :56, :67 *)
  Ok p.

(** diffraction_attenuation/adiff.py:7-102, branch [d != 0] (:71-100); returns adiff1. *)
Definition adiff_at (third d : num) (p : prop) : res num :=
  let! tha := getn p THA in
  let! gme := getn p GME in
  let th := tha + d * gme in                                  (* :73 *)
  let! dla := getn p DLA in
  let ds := d - dla in                                        (* :75 *)
  let! wn := getn p WN in
  let! th2 := n_powZ th 2 in
  let q := 795775 // 10000000 * wn * ds * th2 in              (* :77 *)
  let! dl0 := getn p DL0 in
  let! v0 := (q * dl0) /? (ds + dl0) in
  let! k0 := aknfe v0 in
  let! dl1 := getn p DL1 in
  let! v1 := (q * dl1) /? (ds + dl1) in
  let! k1 := aknfe v1 in
  let ak := k0 + k1 in                                        (* :79-81 *)
  let! a := ds /? th in                                       (* :83 *)
  let! wa := n_pow (a * wn) third in
  let! qk := getn p QK in
  let! pk := qk /? wa in                                      (* :86 *)
  let! xht := getn p XHT in
  let q := (1607 // 1000 - pk) * #151 * wa * th + xht in      (* :88 *)
  let! l := np_log q in
  let! aht := getn p AHT in
  let ar := 5751 // 100000 * q - 4343 // 1000 * l - aht in    (* :90 *)
  let! wd1 := getn p WD1 in
  let! xd1 := getn p XD1 in
  let! t := xd1 /? d in
  let! dh := getn p DH in
  let! q := dh_at d dh in
  let q := (wd1 + t) * pymin (q * wn) (62832 // 10) in        (* :92-96 *)
  let! s := m_sqrt q in
  let! wd := (251 // 10) /? (251 // 10 + s) in                (* :98 *)
  let! afo := getn p AFO in
  Ok (ar * wd + (#1 - wd) * ak + afo).                        (* :100 *)

(** diffraction_attenuation/adiff.py:7-102.  ([third] is the float 1/3, :34; 151.0 is an int here, which
    is numerically the same.) *)
Definition adiff (d : num) (p : prop) : res (num * prop) :=
  let! third := #1 /? #3 in
  if d =? #0 then
    let! p := adiff_init third p in
    Ok (#0, p)
  else
    let! a := adiff_at third d p in
    Ok (a, p).

(** los_attenuation/alos.py:27-40: sps and the (adjusted) reflection coefficient r. *)
Definition alos_refl (d : num) (p : prop) : res (num * cplx A) :=
  let! dh := getn p DH in
  let! q := dh_at d dh in                                     (* :23 *)
  let! s := rough q in                                        (* :25 *)
  let! he0 := getn p HE0 in
  let! he1 := getn p HE1 in
  let q := he0 + he1 in                                       (* :27 *)
  let! d2 := n_powZ d 2 in
  let! q2 := n_powZ q 2 in
  let! t := m_sqrt (d2 + q2) in
  let! sps := q /? t in                                       (* :29 *)
  let! zr := getn p ZGR in
  let! zi := getn p ZGI in
  let z := (zr, zi) in
  let! c := c_div (c_sub (c_real sps) z) (c_add (c_real sps) z) in
  let! wn := getn p WN in
  let! e := m_exp (- pymin #10 (wn * s * sps)) in
  let r := c_mul c (c_real e) in                              (* :31-35 *)
  let! ra := c_abs r in
  let! q := n_powZ ra 2 in                                    (* :37 *)
  if (q <? 25 // 100) || (q <? sps) then                      (* :39 *)
    let! t := sps /? q in
    let! t := m_sqrt t in
    Ok (sps, c_mul r (c_real t))                              (* :40 *)
  else Ok (sps, r).

(** los_attenuation/alos.py:44-52: the two-ray field in dB for reflection coefficient r. *)
Definition alos_field (d : num) (r : cplx A) (p : prop) : res num :=
  let! wn := getn p WN in
  let! he0 := getn p HE0 in
  let! he1 := getn p HE1 in
  let! q := (wn * he0 * he1 * #2) /? d in                     (* :44 *)
  let! q :=
    (if q >? 157 // 100 then
       let! t := (24649 // 10000) /? q in Ok (314 // 100 - t)  (* :46-47 *)
     else Ok q) in
  let! c := m_cos q in
  let! s := m_sin q in
  let! m := c_abs (c_add (c, - s) r) in
  let! m2 := n_powZ m 2 in
  let! l := np_log m2 in
  Ok ((-4343) // 1000 * l).

(** los_attenuation/alos.py:4-55. *)
Definition alos (d : num) (p : prop) : res num :=
  let! (_, r) := alos_refl d p in
  let! emd := getn p EMD in
  let! aed := getn p AED in
  let alos1 := emd * d + aed in                               (* :42 *)
  let! f := alos_field d r p in
  let! wis := getn p WIS in
  Ok ((f - alos1) * wis + alos1).                             (* :49-53 *)

(** scatter_attenuation/ahd.py:3-36. *)
Definition ahd_row (td : num) : num * num * num :=
  if td <=? 10000 // 1 then (1334 // 10, 332 // 1000000, (-4343) // 1000)
  else if td <=? 70000 // 1 then (1046 // 10, 212 // 1000000, (-1086) // 1000)
  else (718 // 10, 157 // 1000000, 2171 // 1000).
Definition ahd (td : num) : res num :=
  let '(a, b, c) := ahd_row td in
  let! l := np_log td in
  Ok (a + b * td + c * l).

(** scatter_attenuation/h0f.py:3-48. *)
Definition h0f_a : list Z := [25; 80; 177; 395; 705].
Definition h0f_b : list Z := [24; 45; 68; 80; 105].
Definition h0f_log (i : Z) (x : num) : res num :=
  let! a := pyget h0f_a i in
  let! b := pyget h0f_b i in
  np_log ((#a * x + #b) * x + #1).
Definition h0f (r et : num) : res num :=
  let! it := n_floor et in                                    (* :26 *)
  let '(it, q) :=
    if (it <=? 0)%Z then (1%Z, #0)
    else if (5 <=? it)%Z then (5%Z, #0)
    else (it, et - #it) in                                    (* :28-37 *)
  let! ir := #1 /? r in
  let! x := n_powZ ir 2 in                                    (* :39 *)
  let! l := h0f_log (it - 1) x in
  let h := 4343 // 1000 * l in                                (* :40 *)
  if negb (q =? #0) then
    let! l := h0f_log it x in
    Ok ((#1 - q) * h + q * (4343 // 1000) * l)                (* :42-46 *)
  else Ok h.

(** scatter_attenuation/ascat.py:30-64 for r1, r2 and th already known: the value of h0. *)
Definition ascat_h0 (d th r1 r2 : num) (p : prop) : res num :=
  let! ad := getn p AD in
  let! ss := (d - ad) /? (d + ad) in                          (* :38 *)
  let! rr := getn p RR in
  let! q := rr /? ss in                                       (* :40 *)
  let ss := pymax (1 // 10) ss in                             (* :41 *)
  let q := pymin (pymax (1 // 10) q) #10 in                   (* :42 *)
  let! z0 := ((d - ad) * (d + ad) * th * 25 // 100) /? d in   (* :43 *)
  let! etq := getn p ETQ in
  let! t := z0 /? (8000 // 1) in
  let! t6 := n_powZ (pymin (17 // 10) t) 6 in
  let! e := m_exp (- t6) in
  let! et := ((etq * e + #1) * z0) /? (17556 // 10) in        (* :45 *)
  let ett := pymax et #1 in                                   (* :47 *)
  let! h1 := h0f r1 ett in
  let! h2 := h0f r2 ett in
  let h0 := (h1 + h2) * 5 // 10 in                            (* :49 *)
  let! l1 := np_log ett in
  let! l2 := np_log ss in
  let! l3 := np_log q in
  let h0 := h0 + pymin h0 ((138 // 100 - l1) * l2 * l3 * 49 // 100) in   (* :51 *)
  let h0 := pymax h0 #0 in                                    (* :53 *)
  let! h0 :=
    (if et <? #1 then                                         (* :55-59 *)
       let! i1 := (14142 // 10000) /? r1 in
       let! i2 := (14142 // 10000) /? r2 in
       let! s := n_powZ ((#1 + i1) * (#1 + i2)) 2 in
       let! u := (s * (r1 + r2)) /? (r1 + r2 + 28284 // 10000) in
       let! l := np_log u in
       Ok (et * h0 + (#1 - et) * 4343 // 1000 * l)
     else Ok h0) in
  let! h0s := getn p H0S in
  Ok (if (h0 >? #15) && (h0s >=? #0) then h0s else h0).       (* :61-62 *)

(** scatter_attenuation/ascat.py:6-75. *)
Definition ascat (d : num) (p : prop) : res prop :=
  let! h0s := getn p H0S in
  let! (h0, p) :=
    (if h0s >? #15 then Ok (h0s, p)                           (* :25-26 *)
     else
       let! the0 := getn p THE0 in
       let! the1 := getn p THE1 in
       let! gme := getn p GME in
       let th := the0 + the1 + d * gme in                     (* :29 *)
       let! wn := getn p WN in
       let r2 := #2 * wn * th in                              (* :30 *)
       let! he0 := getn p HE0 in
       let r1 := r2 * he0 in
       let! he1 := getn p HE1 in
       let r2 := r2 * he1 in                                  (* :32-33 *)
       let p := if (r1 <? 2 // 10) && (r2 <? 2 // 10)
                then setn p ASCAT1 #1001 else p in            (* :35-36 *)
       let! h0 := ascat_h0 d th r1 r2 p in
       let! a1 := getn p ASCAT1 in
       Ok (h0, if negb (a1 =? #1001) then setn p H0S h0 else p)) in   (* :64-66 *)
  let! tha := getn p THA in
  let! gme := getn p GME in
  let th := tha + d * gme in                                  (* :68 *)
  let! f := ahd (th * d) in
  let! wn := getn p WN in
  let! th4 := n_powZ th 4 in
  let! l := np_log (477 // 10 * wn * th4) in
  let! ens := getn p ENS in
  let! t := (- th * d) /? (40000 // 1) in
  let! e := m_exp t in
  Ok (setn p ASCAT1                                           (* :70-73 *)
        (f + 4343 // 1000 * l - 1 // 10 * (ens - #301) * e + h0)).

End Atten.
