(** scripts/: area.py, p2p.py, pimter.py, terrain_module.py. *)
From Verif Require Export Stats Prep.

Section Scripts.
Context (A : arith).
Notation num := (num A).
Notation prop := (prop A).
Notation profile := (profile A).
Local Open Scope num_scope.

(** area.py:149-155, p2p.py:142-149, pimter.py:95-100 with zsys = 0: surface refractivity and effective
    earth curvature. *)
Definition script_gme (ens0 gma : num) (p : prop) : res prop :=
  let p := setn p GMA gma in
  let p := setn p ENS ens0 in
  let! t := ens0 /? (1793 // 10) in
  let! e := m_exp t in
  Ok (setn p GME (gma * (#1 - 4665 // 100000 * e))).

(** area.py:77-90: the constants of the distance loop, in km. *)
Record area_cfg : Type := AreaCfg {
  cfg_QT : num; cfg_QL : num; cfg_QC : list num;
  cfg_D0 : num; cfg_D1 : num; cfg_DS1 : num; cfg_D2 : num; cfg_DS2 : num;
  cfg_KST0 : Z; cfg_KST1 : Z }.

(** area.py:67-93: the values in the script. *)
Definition area_default : area_cfg :=
  AreaCfg #50 #50 [#50; #90; #10] #10 #150 #10 #500 #50 2 2.

(** area.py:107-134: start distance, fine step (None when DS is left unbound), number of distances ND and
    index NDC at which the step changes. *)
Definition area_grid (c : area_cfg) : res (num * option num * Z * Z) :=
  let D0 := if cfg_D0 c <=? #0 then cfg_DS1 c else cfg_D0 c in            (* :108-109 *)
  let D0 := if D0 <=? #0 then #2 else D0 in                               (* :112-113 *)
  let! (ND, D1, DS) :=
    (if (cfg_D1 c <=? D0) || (cfg_DS1 c <=? #0) then Ok (1%Z, D0, None)   (* :116-118 *)
     else
       let DS := cfg_DS1 c in
       let! t := (cfg_D1 c - D0) /? DS in
       let! ND := n_floor (t + 175 // 100) in
       Ok (ND, D0 + #(ND - 1) * DS, Some DS)) in                          (* :121-124 *)
  if (cfg_D2 c <=? D1) || (cfg_DS2 c <=? #0) then Ok (D0, DS, ND, 0%Z)    (* :127-128 *)
  else
    let! t := (cfg_D2 c - D1) /? cfg_DS2 c in
    let! n := n_floor (t + 75 // 100) in
    Ok (D0, DS, (ND + n)%Z, ND).                                          (* :131-134 *)

(** area.py:199-212: the rows of one distance. *)
Fixpoint area_rows (D FS ZT ZL : num) (qz : list (num * num)) (p : prop)
  : res (list (num * num * num) * prop) :=
  match qz with
  | [] => Ok ([], p)
  | (QC, ZC) :: l =>
      let! (a, p) := avar A ZT ZL ZC p in
      let! (rows, p) := area_rows D FS ZT ZL l p in
      Ok ((D, QC, FS + a) :: rows, p)
  end.

(** area.py:184-219: the distance loop, [count] passes from index JD. *)
Fixpoint area_loop (count : nat) (JD NDC : Z) (D DT DS2 ZT ZL : num) (qz : list (num * num)) (p : prop)
  : res (list (num * num * num)) :=
  match count with
  | O => Ok []
  | S n =>
      let! lvar := getz p LVAR in
      let p := setz p LVAR (Z.max 1 lvar) in                              (* :187 *)
      let! p := lrprop A (D * #1000) p in                                 (* :190 *)
      let! wn := getn p WN in
      let! dist := getn p DIST in
      let! l := np_log (#2 * wn * dist) in
      let FS := 8685890 // 1000000 * l in                                 (* :193 *)
      let! (rows, p) := area_rows D FS ZT ZL qz p in                      (* :199-212 *)
      let DT := if (JD + 1 =? NDC)%Z then DS2 else DT in                  (* :215-216 *)
      let! rest := area_loop n (JD + 1) NDC (D + DT) DT DS2 ZT ZL qz p in (* :219 *)
      Ok (rows ++ rest)
  end.

(** area.py:48-168: environment set-up before qlra.  'zgnd' is math.sqrt of the real part only (:164). *)
Definition area_env (p : prop) : res prop :=
  let p := setn (setn (setn p ENS0 #301) EPS #15) SGM (1 // 1000) in      (* :51-57 *)
  let p := setz (setz p KLIMX 5) MDVARX 3 in                              (* :62-65 *)
  let p := setz p KWX 0 in                                                (* :144 *)
  let! fmhz := getn p FMHZ in
  let! wn := fmhz /? (477 // 10) in
  let p := setn p WN wn in                                                (* :146 *)
  let! p := script_gme #301 (157 // 1000000000) p in                      (* :137, :148-155 *)
  let p := setz p LVAR 0 in                                               (* :158 *)
  let! t := (37662 // 100 * (1 // 1000)) /? wn in
  let zq := (#15, t) in                                                   (* :161 *)
  let! s := m_sqrt (#15 - #1) in
  let! ipol := getz p IPOL in
  let! zgnd := (if negb (ipol =? 0)%Z then c_div (c_real s) zq else Ok (c_real s)) in   (* :164-168 *)
  Ok (setn (setn p ZGR (fst zgnd)) ZGI (snd zgnd)).

(** area.py:33-221 with the constants :67-93 as an argument. *)
Definition itmlogic_area_cfg (c : area_cfg) (p : prop) : res (list (num * num * num)) :=
  let pct (x : num) := x /? #100 in
  let! qt := pct (cfg_QT c) in
  let! ZT := qerfi1 A qt in                                               (* :100 *)
  let! ql := pct (cfg_QL c) in
  let! ZL := qerfi1 A ql in                                               (* :101 *)
  let! qc := mapM pct (cfg_QC c) in
  let! ZC := qerfi A qc in                                                (* :102 *)
  let! (D0, DS, ND, NDC) := area_grid c in
  let! p := area_env p in
  let! p := qlra A (cfg_KST0 c) (cfg_KST1 c) p in                         (* :172 *)
  let! DT := opt_res UnboundLocalError DS in                              (* :177 *)
  area_loop (Z.to_nat ND) 0 NDC D0 DT (cfg_DS2 c) ZT ZL (combine (cfg_QC c) ZC) p.

(** area.py:33-221. *)
Definition itmlogic_area (p : prop) : res (list (num * num * num)) := itmlogic_area_cfg area_default p.

(** What p2p.py prints about the path (:194-203). *)
Inductive path_kind : Set := LineOfSight | SingleHorizon | DoubleHorizon.
Inductive mode_msg : Set := MsgNone | MsgDiffraction | MsgScatter.

(** p2p.py:182-203. *)
Definition p2p_classify (xi : num) (p : prop) : res (path_kind * mode_msg) :=
  let! dist := getn p DIST in
  let! dlsa := getn p DLSA in
  let q := dist - dlsa in                                                 (* :187 *)
  let q := pymax (q - 5 // 10 * xi) #0 - pymax (- q - 5 // 10 * xi) #0 in (* :190 *)
  let kind := if q <? #0 then LineOfSight else if q =? #0 then SingleHorizon else DoubleHorizon in
  let! msg :=
    (if dist <=? dlsa then Ok MsgDiffraction                              (* :200-201 *)
     else let! dx := getn p DX in
          if dist >? dx then Ok MsgScatter else Ok MsgNone) in            (* :202-203 *)
  Ok (kind, msg).

(** p2p.py:219-228: the rows of one reliability level. *)
Fixpoint p2p_rows (d fs qr zr : num) (qz : list (num * num)) (p : prop)
  : res (list (num * num * num * num) * prop) :=
  match qz with
  | [] => Ok ([], p)
  | (qc, zc) :: l =>
      let! (a, p) := avar A zr #0 zc p in                                 (* :222 *)
      let! (rows, p) := p2p_rows d fs qr zr l p in
      Ok ((d, qr, qc, fs + a) :: rows, p)
  end.

(** p2p.py:218-228: all rows. *)
Fixpoint p2p_table (d fs : num) (qrz qcz : list (num * num)) (p : prop)
  : res (list (num * num * num * num)) :=
  match qrz with
  | [] => Ok []
  | (qr, zr) :: l =>
      let! (rows, p) := p2p_rows d fs qr zr qcz p in
      let! rest := p2p_table d fs l qcz p in
      Ok (rows ++ rest)
  end.

(** np.sqrt / division part of the impedance (p2p.py:152-159, pimter.py:118-122). *)
Definition p2p_zgnd (eps sgm wn : num) (ipol : Z) : res (cplx A) :=
  let! t := (37662 // 100 * sgm) /? wn in
  let zq := (eps, t) in
  let! zgnd := n_csqrt (eps - #1) t in
  if negb (ipol =? 0)%Z then c_div zgnd zq else Ok zgnd.

(** p2p.py:83-136: the profile list.  With xkm = 0 the step is dkm*1000/np; [xkm = dkm // np] (:130) is
    unused but raises ZeroDivisionError exactly when the next line does. *)
Definition p2p_profile (d : num) (z : list num) : res profile :=
  let np := (Z.of_nat (length z) - 1)%Z in                                (* :84 *)
  let dkm := if d <=? #0 then #0 * #np else d in                          (* :123-124 *)
  if (np =? 0)%Z then Err ZeroDivisionError
  else
    let! xi := (dkm * #1000) /? #np in                                    (* :133 *)
    Ok (Profile np xi z).

(** p2p.py:56-174: everything up to and including qlrpfl. *)
Definition p2p_prepare (z : list num) (p : prop) : res prop :=
  let p := setn (setn p EPS #15) SGM (5 // 1000) in                       (* :60-63 *)
  let p := setn (setz p KLIM 5) ENS0 #314 in                              (* :70-73 *)
  let p := setz p LVAR 5 in                                               (* :100 *)
  let! d := getn p DKM in
  let! f := p2p_profile d z in
  let p := setz (setpfl p f) KWX 0 in                                     (* :136-138 *)
  let! fmhz := getn p FMHZ in
  let! wn := fmhz /? (477 // 10) in
  let p := setn p WN wn in                                                (* :140 *)
  let! p := script_gme #314 (157 // 1000000000) p in                      (* :103, :142-149 *)
  let! ipol := getz p IPOL in
  let! (zr, zi) := p2p_zgnd #15 (5 // 1000) wn ipol in
  let p := setn (setn p ZGR zr) ZGI zi in                                 (* :152-159 *)
  let p := setz (setz p KLIMX 0) MDVARX 11 in                             (* :162-165 *)
  qlrpfl A p.                                                             (* :174 *)

(** p2p.py:77-80. *)
Definition p2p_qc : list num := [#50; #90; #10].
Definition p2p_qr : list num := [#1; #10; #50; #90; #99].

Record p2p_out : Type := P2POut {
  out_kind : path_kind; out_mode : mode_msg; out_fs : num; out_rows : list (num * num * num * num) }.

(** p2p.py:39-230; the printed classification and the returned rows. *)
Definition itmlogic_p2p (z : list num) (p : prop) : res p2p_out :=
  let pct (x : num) := x /? #100 in
  let! qr := mapM pct p2p_qr in
  let! zr := qerfi A qr in                                                (* :168 *)
  let! qc := mapM pct p2p_qc in
  let! zc := qerfi A qc in                                                (* :170 *)
  let! p := p2p_prepare z p in
  let! wn := getn p WN in
  let! dist := getn p DIST in
  let! l := np_log (#2 * wn * dist) in
  let fs := 8685890 // 1000000 * l in                                     (* :183 *)
  let! f := getpfl p in
  let! (kind, mode) := p2p_classify (pf_xi f) p in
  let! d := getn p DKM in
  let! rows := p2p_table d fs (combine p2p_qr zr) (combine p2p_qc zc) p in
  Ok (P2POut kind mode fs rows).

(** pimter.py:133-169: the antenna-height loop for one frequency. *)
Fixpoint pimter_loop (fmhz ZR ZC : num) (txht : list num) (p : prop)
  : res (list (num * num * num * num)) :=
  match txht with
  | [] => Ok []
  | hg :: l =>
      let p := setn p HG1 hg in                                           (* :138 *)
      let p := setz (setz p LVAR 5) KWX 0 in
      let p := setz (setz p KLIMX 0) MDVARX 11 in                         (* :145-149 *)
      let! p := qlrpfl A p in                                             (* :151 *)
      let! wn := getn p WN in
      let! dist := getn p DIST in
      let! t := np_log (#2 * wn * dist) in
      let FS := 8685890 // 1000000 * t in                                 (* :161 *)
      let! (a, p) := avar A ZR #0 ZC p in                                 (* :167 *)
      let! rest := pimter_loop fmhz ZR ZC l p in
      Ok ((fmhz, hg, #50, FS + a) :: rest)
  end.

(** pimter.py:89-90: the deviates.  The levels are passed as 50, not 0.5 (sic). *)
Definition pimter_dev : res num := qerfi1 A #50.

(** pimter.py:57: list(range(10, 131)). *)
Definition pimter_txht : list num := map (fun k => #(Z.of_nat k)) (seq 10 121).

(** pimter.py:51-127, without the deviates: the dictionary before the loop and the frequency.  The heights are those of the
    global [terrain_height_no_tree] (:106); the argument surface_profile_m is not used. *)
Definition pimter_prepare (terrain distance : list num) : res (num * prop) :=
  let p := empty_prop A in
  let p := setz p IPOL 1 in
  let p := setn (setn (setn p EPS #15) SGM (5 // 1000)) ENS0 #314 in      (* :51-66 *)
  let p := setz p KLIM 5 in                                               (* :73 *)
  let! p := script_gme #314 (157 // 1000000000) p in                      (* :93-100 *)
  let! d1 := pyget distance 1 in
  let! d0 := pyget distance 0 in
  let f := Profile (Z.of_nat (length distance) - 1) (d1 - d0) terrain in  (* :102-106 *)
  let! dl := pyget distance (-1) in
  let! dkm := dl /? #1000 in
  let p := setpfl (setn p DKM dkm) f in                                   (* :109-110 *)
  let fmhz := 2488 // 1000 * #1000 in
  let p := setn p FMHZ fmhz in                                            (* :115 *)
  let! wn := fmhz /? (477 // 10) in
  let p := setn p WN wn in                                                (* :117 *)
  let! (zr, zi) := p2p_zgnd #15 (5 // 1000) wn 1 in
  let p := setn (setn p ZGR zr) ZGI zi in                                 (* :118-122 *)
  let p := setn p HG0 (256 // 100) in                                     (* :124-127 *)
  Ok (fmhz, p).

(** pimter.py:28-171. *)
Definition run_itmlogic (terrain distance : list num) : res (list (num * num * num * num)) :=
  let! ZR := pimter_dev in
  let! ZC := pimter_dev in                                                (* :89-90 *)
  let! (fmhz, p) := pimter_prepare terrain distance in
  pimter_loop fmhz ZR ZC pimter_txht p.

(** terrain_module.py:184-226. *)
Definition determine_num_samples (distance_m : num) : res Z :=
  let! t := #1 /? #598 in
  let! u := #(-1) /? (1 // 100000 * distance_m + t) in
  n_rint (u + #600).

(** terrain_module.py:164: np.interp(range(n), [0, n], [0, len]) - the distances along the line at which
    the terrain is sampled.  numpy evaluates slope*(x - x0) + y0 on the only segment. *)
Definition terrain_steps (n : Z) (len : num) : res (list num) :=
  let! slope := (len - #0) /? (#n - #0) in
  Ok (map (fun i => slope * (#(Z.of_nat i) - #0) + #0) (seq 0 (Z.to_nat n))).

(** terrain_module.py:155-165, the part that does not depend on pyproj, shapely or rasterstats: from the
    geodesic length and the planar length of the line to the sampling positions along the line. *)
Definition terrain_sampling (distance_m len : num) : res (list num) :=
  let! n := determine_num_samples distance_m in
  terrain_steps n len.

(** np.percentile(x, q), default linear interpolation (numpy's _lerp). *)
Definition np_percentile (x : list num) (q : num) : res num :=
  let a := rev (sort_desc A x) in
  let n := Z.of_nat (length x) in
  let! t := q /? #100 in
  let v := t * #(n - 1) in
  let! lo := n_floor v in
  let hi := Z.min (lo + 1) (n - 1) in
  let g := v - #lo in
  let! al := pyget a lo in
  let! ah := pyget a hi in
  if g >=? 5 // 10 then Ok (ah - (ah - al) * (#1 - g)) else Ok (al + (ah - al) * g).

(** terrain_module.py:100-119. *)
Definition interdecile_range (x : list num) : res Z :=
  let! q90 := np_percentile x #90 in
  let! q10 := np_percentile x #10 in                                      (* :115 *)
  let! r := n_round (q90 - q10) 0 in
  n_trunc r.                                                              (* :117 *)

End Scripts.
