(** Property theorems C01-C05: lrprop's sign, error indicator, mode protocol and area mode.
    [A] is an arbitrary arithmetic; [RA] exact reals; [PyA l] Python numbers over IEEE binary64 with the
    libm [l]; [TA] is [PyA test_libm]. *)
From Verif Require Import RInst SpecLr PfRuns PfLrGen PfFrame PfArea PfInst PyFloat Cases.
Open Scope Z_scope.

(** * C01 *)
Theorem C01_aref_not_negative : forall (A : arith), (@n_Z A 0 <? #0)%num = false ->
  forall (d : num A) (p p' : prop A), lrprop A d p = Ok p' ->
  exists a, pn p' AREF = Some a /\ (a <? #0)%num = false.
Proof. exact c01_generic. Qed.
Print Assumptions C01_aref_not_negative.

Theorem C01_aref_nonneg_real : forall (d : R) (p p' : prop RA), lrprop RA d p = Ok p' ->
  exists a : R, pn p' AREF = Some a /\ (0 <= a)%R.
Proof. exact c01_real. Qed.
Print Assumptions C01_aref_nonneg_real.

Theorem C01_aref_not_negative_binary64 : forall (l : libm) (d : num (PyA l)) (p p' : prop (PyA l)),
  lrprop (PyA l) d p = Ok p' -> exists a, pn p' AREF = Some a /\ (a <? #0)%num = false.
Proof. exact c01_py. Qed.
Print Assumptions C01_aref_not_negative_binary64.

Example C01_case : is_ok (qlrpfl TA case_p2p) && is_ok (qlrpfl TA case_los) && is_ok (lrprop TA (PI 0) mob) = true.
Proof. vm_compute. reflexivity. Qed.

(** * C02 *)
Theorem C02_kwx_monotone_bounded : forall (A : arith) (p q : prop A), api_run p q ->
  forall k, pz p KWX = Some k -> (k <= 4)%Z -> exists k', pz q KWX = Some k' /\ (k <= k' <= 4)%Z.
Proof. exact api_run_kwx. Qed.
Print Assumptions C02_kwx_monotone_bounded.

Example C02_case : exists p q r a, api_run p r /\ lrprop TA (PI 0) p = Ok q /\
  avar TA (PI 0) (PI 0) (PI 4) q = Ok (a, r) /\ pz p KWX = Some 0%Z /\ pz q KWX = Some 0%Z /\ pz r KWX = Some 2%Z.
Proof. exact c02_case. Qed.

(** * C03 *)
(** The code as it is: the upper limit of terminal 0's horizon distance is tested on dl[1]. *)
Theorem C03_kwx_as_coded : forall (A : arith) (d : num A) (p p' : prop A) m k,
  lrprop A d p = Ok p' -> pz p MDP = Some m -> m <> 0%Z -> pz p KWX = Some k -> (k <= 4)%Z ->
  exists wn hg0 hg1 the0 the1 dl0 dl1 ens gme zr zi dls0 dls1 dist dmin,
    (pn p WN = Some wn /\ pn p HG0 = Some hg0 /\ pn p HG1 = Some hg1 /\ pn p THE0 = Some the0 /\
     pn p THE1 = Some the1 /\ pn p DL0 = Some dl0 /\ pn p DL1 = Some dl1 /\ pn p ENS = Some ens /\
     pn p GME = Some gme /\ pn p ZGR = Some zr /\ pn p ZGI = Some zi) /\
    (pn p' DLS0 = Some dls0 /\ pn p' DLS1 = Some dls1 /\ pn p' DIST = Some dist /\ pn p' DMIN = Some dmin) /\
    pz p' KWX = Some (worst k (terminal_checks hg0 the0 dl0 dls0 dl1 ++ terminal_checks hg1 the1 dl1 dls1 dl1
                               ++ env_checks wn ens gme zr zi ++ dist_checks dist dmin)).
Proof. exact lrprop_kwx_setup. Qed.
Print Assumptions C03_kwx_as_coded.

(** The documented meaning, each check on the terminal's own values; the missing part is exactly the case
    where the test on dl[1] and the one on dl[0] differ. *)
Theorem C03_kwx_documented_partial : forall (A : arith) (d : num A) (p p' : prop A) m k,
  lrprop A d p = Ok p' -> pz p MDP = Some m -> m <> 0%Z -> pz p KWX = Some k -> (k <= 4)%Z ->
  exists wn hg0 hg1 the0 the1 dl0 dl1 ens gme zr zi dls0 dls1 dist dmin,
    (pn p WN = Some wn /\ pn p HG0 = Some hg0 /\ pn p HG1 = Some hg1 /\ pn p THE0 = Some the0 /\
     pn p THE1 = Some the1 /\ pn p DL0 = Some dl0 /\ pn p DL1 = Some dl1 /\ pn p ENS = Some ens /\
     pn p GME = Some gme /\ pn p ZGR = Some zr /\ pn p ZGI = Some zi) /\
    (pn p' DLS0 = Some dls0 /\ pn p' DLS1 = Some dls1 /\ pn p' DIST = Some dist /\ pn p' DMIN = Some dmin) /\
    ((#3 * dls0 <? dl1)%num = (#3 * dls0 <? dl0)%num ->
     pz p' KWX = Some (worst k (terminal_checks hg0 the0 dl0 dls0 dl0 ++ terminal_checks hg1 the1 dl1 dls1 dl1
                                ++ env_checks wn ens gme zr zi ++ dist_checks dist dmin))).
Proof. exact lrprop_kwx_own. Qed.
Print Assumptions C03_kwx_documented_partial.

(** Nothing is out of range (documented code 0) and yet kwx = 3: a 1.5 m mobile and a 100 m mast. *)
Theorem C03_false_alarm_refuted :
  exists p', lrprop TA (PI 0) mob = Ok p' /\ pz p' KWX = Some 3%Z /\ documented_code 0 p' = Some 0%Z.
Proof. exact kwx_false_alarm. Qed.
Print Assumptions C03_false_alarm_refuted.

(** A horizon distance more than three times the smooth-earth one is not reported. *)
Theorem C03_missed_warning_refuted :
  exists p', lrprop TA (PI 0) mob_missed = Ok p' /\ pz p' KWX = Some 0%Z /\ documented_code 0 p' = Some 3%Z.
Proof. exact kwx_missed. Qed.
Print Assumptions C03_missed_warning_refuted.

(** Equal terminals meet the hypotheses of the partial theorem; the code is then the documented one, here 4
    (antenna height 0.3 m). *)
Example C03_case :
  on_ok (lrprop TA (PI 0) (case_mobile (L 3 10) (L 3 10) (PI 2250) (PI 2250)))
    (fun p' => has_z p' KWX 4 && opt_is (documented_code 0 p') 4) = true.
Proof. vm_compute. reflexivity. Qed.

(** * C04 *)
Theorem C04_p2p_ignores_distance : forall (A : arith) (p : prop A) m, pz p MDP = Some m -> (m < 0)%Z ->
  forall d d' : num A, lrprop A d p = lrprop A d' p.
Proof. exact lrprop_p2p_ignores_d. Qed.
Print Assumptions C04_p2p_ignores_distance.

Theorem C04_p2p_keeps_mode_and_dist : forall (A : arith) (d : num A) (p p' : prop A) m,
  lrprop A d p = Ok p' -> pz p MDP = Some m -> (m < 0)%Z -> pz p' MDP = Some m /\ pn p' DIST = pn p DIST.
Proof. exact lrprop_p2p. Qed.
Print Assumptions C04_p2p_keeps_mode_and_dist.

Theorem C04_area_stores_distance : forall (A : arith) (d : num A) (p p' : prop A) m,
  lrprop A d p = Ok p' -> pz p MDP = Some m -> (0 <= m)%Z -> pz p' MDP = Some 0%Z /\ pn p' DIST = Some d.
Proof. exact lrprop_area. Qed.
Print Assumptions C04_area_stores_distance.

(** In the continuing mode only the results and the two coefficient caches change. *)
Theorem C04_continuing_frame : forall (A : arith) (d : num A) (p p' : prop A), pz p MDP = Some 0%Z ->
  lrprop A d p = Ok p' ->
  same_except [DIST; AREF; AK1; AK2; AEL; AD; RR; ETQ; H0S; ASCAT1; EMS; DX; AES] [KWX; MDP] [WLOS; WSCAT] p p'.
Proof. exact c04_frame. Qed.
Print Assumptions C04_continuing_frame.

Example C04_case :
  on_ok (qlra TA 2 2 case_area) (fun p0 => has_z p0 MDP 1 &&
    on_ok (lrprop TA (PI 3000) p0) (fun p1 => has_z p1 MDP 0 && is_ok (lrprop TA (PI 90000) p1))) = true.
Proof. vm_compute. reflexivity. Qed.

(** * C05 *)
(** Distances beyond the smooth-earth horizon, and the first distance within it.  Missing: further
    distances within the horizon, where the claim is false (below). *)
Theorem C05_area_history_partial : forall (A : arith) m (p : prop A) d0 ds q d q' dlsa,
  pz p MDP = Some m -> (0 < m)%Z -> lr_calls A (d0 :: ds) p = Ok q -> lrprop A d q = Ok q' ->
  pn q DLSA = Some dlsa ->
  beyond dlsa d \/ (within dlsa d /\ Forall (fun e => (e <? dlsa)%num = false) (d0 :: ds)) ->
  exists r, lrprop A d p = Ok r /\ pn q' AREF = pn r AREF.
Proof. exact area_history. Qed.
Print Assumptions C05_area_history_partial.

Theorem C05_area_history_real_partial : forall m (p : prop RA) d0 ds q (d : R) q' (dlsa : R),
  pz p MDP = Some m -> (0 < m)%Z -> lr_calls RA (d0 :: ds) p = Ok q -> lrprop RA d q = Ok q' ->
  pn q DLSA = Some dlsa ->
  (dlsa <= d)%R \/ ((0 < d < dlsa)%R /\ Forall (fun e : R => (dlsa <= e)%R) (d0 :: ds)) ->
  exists r, lrprop RA d p = Ok r /\ pn q' AREF = pn r AREF.
Proof. exact c05_real. Qed.
Print Assumptions C05_area_history_real_partial.

(** What happens otherwise, in any arithmetic: the previous value is returned again. *)
Theorem C05_los_repeats_previous : forall (A : arith) (q : prop A) d q' dlsa a,
  pz q MDP = Some 0%Z -> pb q WLOS = Some true -> pn q DLSA = Some dlsa -> within dlsa d ->
  pn q AREF = Some a -> lrprop A d q = Ok q' -> pn q' AREF = Some (pymax a #0)%num.
Proof. exact area_stale. Qed.
Print Assumptions C05_los_repeats_previous.

(** In binary64: 10 km asked after 3 km gives the value of 3 km, more than 6 dB below that of 10 km. *)
Theorem C05_area_history_refuted :
  exists p0 p1 p2 q a1 a2 b, qlra TA 2 2 case_area = Ok p0 /\ lrprop TA (PI 3000) p0 = Ok p1 /\
    lrprop TA (PI 10000) p1 = Ok p2 /\ lrprop TA (PI 10000) p0 = Ok q /\
    pn p1 AREF = Some a1 /\ pn p2 AREF = Some a2 /\ pn q AREF = Some b /\
    (a1 =? a2)%num = true /\ (a2 + PI 6 <? b)%num = true.
Proof. exact area_second_distance. Qed.
Print Assumptions C05_area_history_refuted.

(** The hypotheses of the partial theorem hold e.g. for 90 km after 3, 60, 10 km. *)
Example C05_case :
  on_ok (qlra TA 2 2 case_area) (fun p0 =>
    on_ok (lr_calls TA [PI 3000; PI 60000; PI 10000] p0) (fun q => is_ok (lrprop TA (PI 90000) q) &&
      has_n q DLSA (fun dlsa => negb (@n_ltb TA (PI 90000) dlsa) && @n_leb TA dlsa (PI 90000)))) = true.
Proof. vm_compute. reflexivity. Qed.
