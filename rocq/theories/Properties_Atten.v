(** Property theorems C11, C16, C17: the attenuation functions adiff, ascat, alos. *)
From Verif Require Import RInst Atten LrProp SpecAtten PfAtten PfRealRun PfRealCases.
From Verif Require Import PyFloat Cases.
Open Scope R_scope.

(** * C11 *)
Theorem C11_prop_unmodified : forall (A : arith) (d a : num A) (p p' : prop A),
  @n_eqb A d #0%num = false -> adiff A d p = Ok (a, p') -> p' = p.
Proof. exact (fun A d a p p' => adiff_frame_any A d p a p'). Qed.
Print Assumptions C11_prop_unmodified.

Theorem C11_convex_combination : forall (d a : R) (p p' : prop RA), d <> 0 -> adiff RA d p = Ok (a, p') ->
  exists v, values p [THA; GME; DLA; WN; DL0; DL1; QK; XHT; AHT; WD1; XD1; DH; AFO] v /\
    let w := diff_weight v d in
    0 < w <= 1 /\ 12.04 < double_knife v d /\
    a = w * rounded_earth v d + (1 - w) * double_knife v d + v AFO /\
    Rmin (rounded_earth v d) (double_knife v d) <= a - v AFO <= Rmax (rounded_earth v d) (double_knife v d).
Proof. exact adiff_between. Qed.
Print Assumptions C11_convex_combination.

Example C11_case : 60000 <> 0 /\ exists (a : R) (p' : prop RA), adiff RA 60000 case_diff = Ok (a, p').
Proof. split; [lra | exact case_diff_runs]. Qed.

(** * C16 *)
(** Full claim: with r1, r2 < 0.2 the result is the marker 1001 and lrprop keeps the diffraction line.  In
    fact the marker is overwritten (ascat.py:70) and all that is left of it is that h0s is not stored. *)
Theorem C16_h0s_kept_partial : forall (A : arith) (d h0s the0 the1 gme wn he0 he1 : num A) (p p' : prop A),
  pn p H0S = Some h0s -> pn p THE0 = Some the0 -> pn p THE1 = Some the1 -> pn p GME = Some gme -> pn p WN = Some wn ->
  pn p HE0 = Some he0 -> pn p HE1 = Some he1 ->
  (h0s >? #15)%num = false -> @n_eqb A #1001%num #1001%num = true ->
  (let r := #2 * wn * (the0 + the1 + d * gme) in ((r * he0 <? 2 // 10) && (r * he1 <? 2 // 10))%bool = true)%num ->
  ascat A d p = Ok p' -> pn p' H0S = Some h0s.
Proof. exact ascat_keeps_h0s. Qed.
Print Assumptions C16_h0s_kept_partial.

(** Both scatter distances inadmissible, no range warning: the result at 300 km is still the scatter line,
    more than 12 dB below the diffraction line. *)
Theorem C16_marker_refuted : exists p0 p1 (aed emd a : num TA), lrprop TA (PI 0) case_low = Ok p0 /\
  lrprop TA (PI 300000) case_low = Ok p1 /\ pz p1 KWX = Some 0%Z /\
  pn p0 DLA = Some (PI 11600) /\ (low_r (PI 211600) <? L 2 10)%num = true /\ (low_r (PI 411600) <? L 2 10)%num = true /\
  pn p0 AED = Some aed /\ pn p0 EMD = Some emd /\ pn p1 AREF = Some a /\
  (a + PI 12 <? aed + emd * PI 300000)%num = true.
Proof. exact scatter_accepted. Qed.
Print Assumptions C16_marker_refuted.

Example C16_case : on_ok (lrprop TA (PI 0) case_low) (fun p => on_ok (ascat TA (PI 211600) p) (fun p' =>
  has_n p' H0S (fun h => (h =? PI (-15))%num) && has_n p' ASCAT1 (fun a => (a <? PI 1000)%num))) = true.
Proof. vm_compute. reflexivity. Qed.

(** * C17 *)
(** alos returns a number only: the dictionary is not returned, hence not modified. *)
Theorem C17_blend : forall (d a : R) (p : prop RA), alos RA d p = Ok a ->
  exists v, values p [DH; HE0; HE1; ZGR; ZGI; WN; EMD; AED; WIS] v /\
    let field := two_ray (reflection v d) (phase v d) in
    a = v WIS * field + (1 - v WIS) * (v EMD * d + v AED) /\
    (cnorm2 (reflection v d) <= 1 -> -4.343 * ln 4 <= field) /\
    (0 <= v ZGR -> 0 <= v WN -> 0 <= v HE0 + v HE1 -> cnorm2 (reflection v d) <= 1).
Proof. exact alos_full. Qed.
Print Assumptions C17_blend.

Theorem C17_symmetric : forall (d h0 h1 : R) (p : prop RA), pn p HE0 = Some h0 -> pn p HE1 = Some h1 ->
  alos RA d (setn (setn p HE0 (h1 : num RA)) HE1 (h0 : num RA)) = alos RA d p.
Proof. exact alos_sym. Qed.
Print Assumptions C17_symmetric.

Example C17_case : (exists a : R, alos RA 5000 case_los_real = Ok a) /\
  pn case_los_real HE0 = Some 5 /\ pn case_los_real HE1 = Some 12 /\ pn case_los_real ZGR = Some (2415 / 10000).
Proof. split; [exact case_los_real_runs | repeat split]. Qed.
