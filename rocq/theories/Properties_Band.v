(** C68: how far a prediction can lie from the reference attenuation and below free space.  Exact reals. *)
From Verif Require Import RInst SpecBand SpecPathRun Scripts PfBand PfBand2 PfAvarCases PfQuantCases PfPathCases PfAreaRun4 PyFloat Cases Arith.
Open Scope R_scope.

(** Whenever avar refreshes its statistics they stay within the bounds of the climate, however often it was called
    before and at whatever distance, frequency and irregularity; the climate is the one asked for (C22) or the one in use. *)
Theorem C68_statistics : forall (t l c a : R) p q lv, stat_state p -> path_inputs p -> pz p LVAR = Some lv -> (0 < lv)%Z -> avar RA t l c p = Ok (a, q) ->
  exists k point v, pz q KLIM = Some k /\ (1 <= k <= 7)%Z /\ ((4 < lv)%Z -> forall asked, pz p KLIM = Some asked -> k = climate_used asked) /\
    ((lv <= 4)%Z -> pz p KLIM = Some k) /\ pb q WL = Some point /\ values q quantile_keys v /\ stats_within k point v.
Proof. exact statistics. Qed.
Print Assumptions C68_statistics.

(** So the result lies between the reference attenuation less and plus a bound that depends on the climate and the
    deviates alone, in all four variability modes. *)
Theorem C68_departure : forall (t l c a z : R) p q lv, stat_state p -> path_inputs p -> pz p LVAR = Some lv -> (0 < lv)%Z -> avar RA t l c p = Ok (a, q) -> deviates_within z t l c ->
  exists k point aref, pz q KLIM = Some k /\ pb q WL = Some point /\ pn p AREF = Some aref /\
    let d := spread (time_spread k) (location_spread point) z in squash (aref - median_below k - d) <= a <= squash (aref + median_above k + d).
Proof. exact departure. Qed.
Print Assumptions C68_departure.

(** The median, by climate. *)
Theorem C68_median : forall (a : R) p q lv, stat_state p -> path_inputs p -> pz p LVAR = Some lv -> (0 < lv)%Z -> avar RA 0 0 0 p = Ok (a, q) ->
  exists k aref, pz q KLIM = Some k /\ pn p AREF = Some aref /\ squash (aref - median_below k) <= a <= squash (aref + median_above k).
Proof. exact median_departure. Qed.
Print Assumptions C68_median.

(** Whatever levels are asked for, in any climate and mode: never 34 dB below free space, never 311 dB above the reference. *)
Theorem C68_any_levels : forall (qt ql qc t l c a : R) p q lv, stat_state p -> path_inputs p -> pz p LVAR = Some lv -> (0 < lv)%Z -> avar RA t l c p = Ok (a, q) ->
  qerfi RA [qt] = Ok [t] -> qerfi RA [ql] = Ok [l] -> qerfi RA [qc] = Ok [c] -> exists aref, pn p AREF = Some aref /\ (0 <= aref -> -34 <= a <= aref + 311).
Proof. exact any_levels. Qed.
Print Assumptions C68_any_levels.

(** p2p.py: all fifteen losses lie in one window around free space plus the reference attenuation, none 10 dB below free
    space; the row of 50% reliability and confidence within 4.3 dB below and 0.62 dB above. *)
Theorem C68_p2p_table : forall (p : prop RA) zs d f h0 h1 ipol out, path_request p zs d f h0 h1 ipol -> itmlogic_p2p RA zs p = Ok out ->
  exists q (aref : R), p2p_prepare RA zs p = Ok q /\ pn q AREF = Some aref /\ 0 <= aref /\ forall dd r c L : R, In (dd, r, c, L) (out_rows RA out) ->
    out_fs RA out + squash (aref - 71.2) <= L <= out_fs RA out + aref + 67.5 /\ out_fs RA out - 10 <= L /\
    (r = 50 -> c = 50 -> out_fs RA out + squash (aref - 4.3) <= L <= out_fs RA out + aref + 0.62).
Proof. exact p2p_table_within. Qed.
Print Assumptions C68_p2p_table.

(** area.py: no loss is 8 dB below free space at its distance; with other settings none is 29 dB below. *)
Theorem C68_area_table : forall (p : prop RA) (f dh : R) rows, pn p FMHZ = Some f -> pn p DH = Some dh -> 0 < f -> 0 <= dh -> itmlogic_area RA p = Ok rows ->
  forall D q L : R, In (D, q, L) rows -> 8.685890 * ln (2 * (f / 47.7) * (D * 1000)) - 8 <= L.
Proof. exact area_floor_script. Qed.
Print Assumptions C68_area_table.
Theorem C68_area_any_settings : forall (c : area_cfg RA) (p : prop RA) (f dh : R) rows, pn p FMHZ = Some f -> pn p DH = Some dh -> 0 < f -> 0 <= dh -> itmlogic_area_cfg RA c p = Ok rows ->
  forall D q L : R, In (D, q, L) rows -> 8.685890 * ln (2 * (f / 47.7) * (D * 1000)) - 29 <= L.
Proof. exact area_floor_any. Qed.
Print Assumptions C68_area_any_settings.

(** A path of 60 km in climate 5, any mode; the same dictionary after a call and edits. *)
Example C68_case : forall m (t l c : R), (0 <= m <= 3)%Z -> stat_state (case_stat m 5) /\ path_inputs (case_stat m 5) /\ exists a q, avar RA t l c (case_stat m 5) = Ok (a, q).
Proof. exact band_case. Qed.
(** The median does come within 0.1 dB of its bound: reference attenuation 100, result below 95.8. *)
Example C68_case_median : on_ok (avar TA (PI 0) (PI 0) (PI 0) (setn (setn case_avar AREF (PI 100)) DIST (PI 285130))) (fun r => @n_ltb TA (fst r) (L 958 10)) = true.
Proof. vm_compute. reflexivity. Qed.
(** Requests to p2p.py (C65 says when its table exists) and to area.py (C64). *)
Example C68_case_p2p : path_request (path_call 41.5 77.8 143.9 8.5 0) [96; 84; 65; 46; 46; 46; 61] 77.8 41.5 143.9 8.5 0.
Proof. apply path_call_request; try lra. cbn. lia. Qed.
Example C68_case_area : let p := area_call 573 143.9 8.5 70 1 in pn p FMHZ = Some 573 /\ pn p DH = Some 70 /\ 0 < 573 /\ 0 <= 70.
Proof. repeat split; lra || reflexivity. Qed.
