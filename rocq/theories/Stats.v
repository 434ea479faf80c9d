(** src/itmlogic/statistics: curv, avar. *)
From Verif Require Export LrProp.

Section Stats.
Context (A : arith).
Notation num := (num A).
Notation prop := (prop A).
Local Open Scope num_scope.

(** statistics/curv.py:2-15. *)
Definition curv (c1 c2 x1 x2 x3 de : num) : res num :=
  let! t := (de - x2) /? x3 in
  let! t2 := n_powZ t 2 in
  let! u := c2 /? (#1 + t2) in
  let! s := de /? x1 in
  let! s2 := n_powZ s 2 in
  ((c1 + u) * s2) /? (#1 + s2).

(** statistics/avar.py:38-60, tables (one entry per climate 1..7). *)
Definition bv1 : list num := [(-967)//100; (-62)//100; 126//100; (-921)//100; (-62)//100; (-39)//100; 315//100].
Definition bv2 : list num := [127//10; 919//100; 155//10; 905//100; 919//100; 286//100; 8579//10].
Definition xv1 : list num := [144900//1; 228900//1; 262600//1; 84100//1; 228900//1; 141700//1; 2222000//1].
Definition xv2 : list num := [190300//1; 205200//1; 185200//1; 101100//1; 205200//1; 315900//1; 164800//1].
Definition xv3 : list num := [133800//1; 143600//1; 99800//1; 98600//1; 143600//1; 167400//1; 116300//1].
Definition bsm1 : list num := [213//100; 266//100; 611//100; 198//100; 268//100; 686//100; 851//100].
Definition bsm2 : list num := [1595//10; 767//100; 665//100; 1311//100; 716//100; 1038//100; 1698//10].
Definition xsm1 : list num := [762200//1; 100400//1; 138200//1; 139100//1; 93700//1; 187800//1; 609800//1].
Definition xsm2 : list num := [123600//1; 172500//1; 242200//1; 132700//1; 186800//1; 169600//1; 119900//1].
Definition xsm3 : list num := [94500//1; 136400//1; 178600//1; 193500//1; 133500//1; 108900//1; 106600//1].
Definition bsp1 : list num := [211//100; 687//100; 1008//100; 368//100; 475//100; 858//100; 843//100].
Definition bsp2 : list num := [1023//10; 1553//100; 960//100; 1593//10; 812//100; 1397//100; 819//100].
Definition xsp1 : list num := [636900//1; 138700//1; 165300//1; 464400//1; 93200//1; 216000//1; 136200//1].
Definition xsp2 : list num := [134800//1; 143700//1; 225700//1; 93100//1; 135900//1; 152000//1; 188500//1].
Definition xsp3 : list num := [95600//1; 98600//1; 129700//1; 94200//1; 113400//1; 122700//1; 122900//1].
Definition bsd1 : list num := [1224//1000; 801//1000; 1380//1000; 1000//1000; 1224//1000; 1518//1000; 1518//1000].
Definition bzd1 : list num := [1282//1000; 2161//1000; 1282//1000; 20//1; 1282//1000; 1282//1000; 1282//1000].
Definition bfm1 : list num := [1//1; 1//1; 1//1; 1//1; 92//100; 1//1; 1//1].
Definition bfm2 : list num := [0//1; 0//1; 0//1; 0//1; 25//100; 0//1; 0//1].
Definition bfm3 : list num := [0//1; 0//1; 0//1; 0//1; 177//100; 0//1; 0//1].
Definition bfp1 : list num := [1//1; 93//100; 1//1; 93//100; 93//100; 1//1; 1//1].
Definition bfp2 : list num := [0//1; 31//100; 0//1; 19//100; 31//100; 0//1; 0//1].
Definition bfp3 : list num := [0//1; 200//100; 0//1; 179//100; 200//100; 0//1; 0//1].

(** avar.py:71-93: which table feeds which entry, in program order. *)
Definition climate_tables : list (nkey * list num) :=
  [(CV1, bv1); (CV2, bv2); (YV1, xv1); (YV2, xv2); (YV3, xv3);
   (CSM1, bsm1); (CSM2, bsm2); (YSM1, xsm1); (YSM2, xsm2); (YSM3, xsm3);
   (CSP1, bsp1); (CSP2, bsp2); (YSP1, xsp1); (YSP2, xsp2); (YSP3, xsp3);
   (CSD1, bsd1); (ZD, bzd1); (CFM1, bfm1); (CFM2, bfm2); (CFM3, bfm3);
   (CFP1, bfp1); (CFP2, bfp2); (CFP3, bfp3)].

(** avar.py:66-93 (lvar > 4). *)
Definition av_klim (p : prop) : res prop :=
  let! klim := getz p KLIM in
  let! p :=
    (if (klim <=? 0)%Z || (7 <? klim)%Z then                  (* :67-69 *)
       let! kwx := getz p KWX in
       Ok (setz (setz p KLIM 5) KWX (Z.max kwx 2))
     else Ok p) in
  let! klim := getz p KLIM in
  foldM (fun p kt => let! v := pyget (snd kt) (klim - 1)%Z in Ok (setn p (fst kt) v))
        climate_tables p.

(** avar.py:97-110 (lvar > 3). *)
Definition av_mode (p : prop) : res prop :=
  let! kdv := getz p MDVAR in
  let ws := (20 <=? kdv)%Z in
  let kdv := if ws then (kdv - 20)%Z else kdv in
  let wl := (10 <=? kdv)%Z in
  let kdv := if wl then (kdv - 10)%Z else kdv in
  let p := setb (setb p WS ws) WL wl in
  if (kdv <? 0)%Z || (3 <? kdv)%Z then                        (* :108-110 *)
    let! kwx := getz p KWX in
    Ok (setz (setz p KDV 0) KWX (Z.max kwx 2))
  else Ok (setz p KDV kdv).

(** avar.py:116-124: one of the two frequency factors. *)
Definition av_gain (c1 c2 c3 q : num) : res num :=
  let! t := n_powZ (c3 * q) 2 in
  let! u := c2 /? (t + #1) in
  Ok (c1 + u).

(** avar.py:114-124 (lvar > 2). *)
Definition av_freq (p : prop) : res prop :=
  let! wn := getn p WN in
  let! q := np_log (133 // 1000 * wn) in
  let! cfm1 := getn p CFM1 in
  let! cfm2 := getn p CFM2 in
  let! cfm3 := getn p CFM3 in
  let! gm := av_gain cfm1 cfm2 cfm3 q in
  let p := setn p GM gm in
  let! cfp1 := getn p CFP1 in
  let! cfp2 := getn p CFP2 in
  let! cfp3 := getn p CFP3 in
  let! gp := av_gain cfp1 cfp2 cfp3 q in
  Ok (setn p GP gp).

(** avar.py:128-132 (lvar > 1). *)
Definition av_he (third : num) (p : prop) : res prop :=
  let! he0 := getn p HE0 in
  let! s0 := m_sqrt (18000000 // 1 * he0) in
  let! he1 := getn p HE1 in
  let! s1 := m_sqrt (18000000 // 1 * he1) in
  let! wn := getn p WN in
  let! t := (575700000000000 // 1) /? wn in
  let! u := n_pow t third in
  Ok (setn p DEXA (s0 + s1 + u)).

(** avar.py:134-138: the effective distance de. *)
Definition av_de (p : prop) : res num :=
  let! dist := getn p DIST in
  let! dexa := getn p DEXA in
  if dist <? dexa then (130000 // 1 * dist) /? dexa
  else Ok (130000 // 1 + dist - dexa).

(** avar.py:134-171 (lvar > 0). *)
Definition av_dist (p : prop) : res prop :=
  let! de := av_de p in
  let! cv1 := getn p CV1 in
  let! cv2 := getn p CV2 in
  let! yv1 := getn p YV1 in
  let! yv2 := getn p YV2 in
  let! yv3 := getn p YV3 in
  let! vmd := curv cv1 cv2 yv1 yv2 yv3 de in
  let p := setn p VMD vmd in                                  (* :140-143 *)
  let! csm1 := getn p CSM1 in
  let! csm2 := getn p CSM2 in
  let! ysm1 := getn p YSM1 in
  let! ysm2 := getn p YSM2 in
  let! ysm3 := getn p YSM3 in
  let! c := curv csm1 csm2 ysm1 ysm2 ysm3 de in
  let! gm := getn p GM in
  let p := setn p SGTM (c * gm) in                            (* :145-147 *)
  let! csp1 := getn p CSP1 in
  let! csp2 := getn p CSP2 in
  let! ysp1 := getn p YSP1 in
  let! ysp2 := getn p YSP2 in
  let! ysp3 := getn p YSP3 in
  let! c := curv csp1 csp2 ysp1 ysp2 ysp3 de in
  let! gp := getn p GP in
  let sgtp := c * gp in
  let p := setn p SGTP sgtp in                                (* :149-151 *)
  let! csd1 := getn p CSD1 in
  let sgtd := sgtp * csd1 in
  let p := setn p SGTD sgtd in                                (* :153 *)
  let! zd := getn p ZD in
  let p := setn p TGTD ((sgtp - sgtd) * zd) in                (* :155 *)
  let! wl := getb p WL in
  let! sgl :=
    (if wl then Ok #0
     else
       let! dist := getn p DIST in
       let! dh := getn p DH in
       let! q := dh_at A dist dh in
       let! wn := getn p WN in
       let q := q * wn in                                     (* :160-163 *)
       (#10 * q) /? (q + #13)) in                             (* :164 *)
  let p := setn p SGL sgl in
  let! ws := getb p WS in
  let! vs0 :=
    (if ws then Ok #0
     else
       let! t := (- de) /? (100000 // 1) in
       let! e := m_exp t in
       n_powZ (#5 + #3 * e) 2) in                             (* :169 *)
  let p := setn p VS0 vs0 in
  Ok (setz p LVAR 0).                                         (* :171 *)

(** avar.py:65-171: refresh of the cached quantities according to lvar. *)
Definition av_refresh (third : num) (p : prop) : res prop :=
  let! lvar := getz p LVAR in
  if (0 <? lvar)%Z then
    let! p := (if (4 <? lvar)%Z then av_klim p else Ok p) in
    let! p := (if (3 <? lvar)%Z then av_mode p else Ok p) in
    let! p := (if (2 <? lvar)%Z then av_freq p else Ok p) in
    let! p := (if (1 <? lvar)%Z then av_he third p else Ok p) in
    av_dist p
  else Ok p.

(** avar.py:173-183: deviates folded according to the variability mode. *)
Definition av_fold (kdv : Z) (zzt zzl zzc : num) : num * num * num :=
  if (kdv =? 0)%Z then (zzc, zzc, zzc)
  else if (kdv =? 1)%Z then (zzt, zzc, zzc)
  else if (kdv =? 2)%Z then (zzt, zzt, zzc)
  else (zzt, zzl, zzc).

(** avar.py:188-193. *)
Definition av_sgt (zt : num) (p : prop) : res num :=
  if zt <? #0 then getn p SGTM
  else
    let! zd := getn p ZD in
    if zt <=? zd then getn p SGTP
    else
      let! sgtd := getn p SGTD in
      let! tgtd := getn p TGTD in
      let! t := tgtd /? zt in
      Ok (sgtd + t).

(** avar.py:195-213: the quantile before the final compression of negative values. *)
Definition av_raw (kdv : Z) (zt zl zc sgt : num) (p : prop) : res num :=
  let! vs0 := getn p VS0 in
  let! sgl := getn p SGL in
  let! n1 := n_powZ (sgt * zt) 2 in
  let! zc2 := n_powZ zc 2 in
  let! u1 := n1 /? (78 // 10 + zc2) in
  let! n2 := n_powZ (sgl * zl) 2 in
  let! u2 := n2 /? (#24 + zc2) in
  let vs := vs0 + u1 + u2 in                                  (* :195-198 *)
  let! sgt2 := n_powZ sgt 2 in
  let! sgl2 := n_powZ sgl 2 in
  let! (yr, sgc) :=
    (if (kdv =? 0)%Z then
       let! s := m_sqrt (sgt2 + sgl2 + vs) in Ok (#0, s)
     else if (kdv =? 1)%Z then
       let! s := m_sqrt (sgl2 + vs) in Ok (sgt * zt, s)
     else if (kdv =? 2)%Z then
       let! t := m_sqrt (sgt2 + sgl2) in
       let! s := m_sqrt vs in Ok (t * zt, s)
     else
       let! s := m_sqrt vs in Ok (sgt * zt + sgl * zl, s)) in  (* :200-211 *)
  let! aref := getn p AREF in
  let! vmd := getn p VMD in
  Ok (aref - vmd - yr - sgc * zc).                            (* :213 *)

(** avar.py:215-216. *)
Definition av_compress (a : num) : res num :=
  if a <? #0 then (a * (#29 - a)) /? (#29 - #10 * a) else Ok a.

(** avar.py:173-218: one quantile from the cached quantities. *)
Definition av_quant (zzt zzl zzc : num) (p : prop) : res (num * prop) :=
  let! kdv := getz p KDV in
  let '(zt, zl, zc) := av_fold kdv zzt zzl zzc in
  let lim := 310 // 100 in
  let! p :=
    (if (n_abs zt >? lim) || (n_abs zl >? lim) || (n_abs zc >? lim) then   (* :185-186 *)
       let! kwx := getz p KWX in Ok (setz p KWX (Z.max kwx 1))
     else Ok p) in
  let! sgt := av_sgt zt p in
  let! a := av_raw kdv zt zl zc sgt p in
  let! a := av_compress a in
  Ok (a, p).

(** statistics/avar.py:6-218. *)
Definition avar (zzt zzl zzc : num) (p : prop) : res (num * prop) :=
  let! third := #1 /? #3 in
  let! p := av_refresh third p in
  av_quant zzt zzl zzc p.

End Stats.
