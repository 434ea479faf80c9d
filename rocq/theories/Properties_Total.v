(** C60: lrprop, adiff and alos are defined on physical inputs, over exact reals. *)
From Verif Require Import RInst SpecLr SpecTotal PfRealRun PfTotal PfTotal2 PfTotal3 PfTotal4 PfTotal5 PfTotal6 PyFloat Cases PfTotalCases.
Open Scope R_scope.

(** Area mode: any sequence of distances, the first call computing the set-up.  v holds the caller's entries and the
    reference values of the derived ones (C56). *)
Theorem C60_area_calls : forall (d : R) (ds : list R) (p : prop RA) (v : nkey -> R) (m k : Z),
  values p (ENS :: setup_inputs) v -> pz p MDP = Some m -> (0 < m)%Z -> pz p KWX = Some k ->
  physical v -> ground_ok v -> reference_params v false ->
  (forall x, In x (d :: ds) -> x < v DLSA -> los_ok v) -> (forall x, In x (d :: ds) -> x <= 0 \/ v DLSA <= x -> scat_ok v) ->
  exists q, lr_calls RA (d :: ds) p = Ok q.
Proof. exact lrprop_total_area. Qed.
Print Assumptions C60_area_calls.
(** Point-to-point mode: the distance x is that of the dictionary. *)
Theorem C60_path_call : forall (d x : R) (p : prop RA) (v : nkey -> R) (m k : Z),
  values p (ENS :: setup_inputs) v -> pz p MDP = Some m -> (m < 0)%Z -> pz p KWX = Some k -> pn p DIST = Some (x : num RA) ->
  physical v -> ground_ok v -> reference_params v true ->
  (x < v DLSA -> los_ok v) -> (x <= 0 \/ v DLSA <= x -> scat_ok v) -> exists q, lrprop RA d p = Ok q.
Proof. exact lrprop_total_path. Qed.
Print Assumptions C60_path_call.
(** The derived values are determined by the caller's. *)
Theorem C60_reference_unique : forall (v w : nkey -> R) (p2p : bool), (forall k, In k setup_inputs -> v k = w k) -> 0 < v WN -> 0 < v GME ->
  reference_params v p2p -> reference_params w p2p -> forall k, In k setup_keys -> v k = w k.
Proof. exact reference_unique. Qed.
Print Assumptions C60_reference_unique.
(** Simple conditions that suffice. *)
Theorem C60_ground : forall v, physical v -> ordinary v -> ground_ok v.
Proof. exact simple_ground. Qed.
Print Assumptions C60_ground.
Theorem C60_line_of_sight : forall v, 0 < v DLA -> 0 <= v AED -> 5 * v DLA < 8 * v DLSA -> v ZGI <> 0 -> los_ok v.
Proof. exact simple_los. Qed.
Print Assumptions C60_line_of_sight.
(** Area mode from the caller's entries: qlra always succeeds and so does the set-up of lrprop; what remains are the
    coincidences in the line-of-sight fit (none if the ground conducts and the diffraction line starts at aed >= 0) and
    in the scatter line. *)
Theorem C60_area_mode : forall (k0 k1 : Z) (p : prop RA) (w : nkey -> R) (lv mx kx kw : Z),
  values p [HG0; HG1; WN; ENS; GME; DH; ZGR; ZGI] w ->
  pz p LVAR = Some lv -> pz p MDVARX = Some mx -> pz p KLIMX = Some kx -> pz p KWX = Some kw -> area_ranges w ->
  exists q v, qlra RA k0 k1 p = Ok q /\ values q (ENS :: setup_inputs) v /\ reference_params v false /\
    (v ZGI <> 0 -> 0 <= v AED -> los_ok v) /\
    forall d ds, (forall x, In x (d :: ds) -> x < v DLSA -> los_ok v) -> (forall x, In x (d :: ds) -> x <= 0 \/ v DLSA <= x -> scat_ok v) ->
      exists r, lr_calls RA (d :: ds) q = Ok r.
Proof. exact area_total. Qed.
Print Assumptions C60_area_mode.
(** Exact domain of the two attenuation functions. *)
Theorem C60_diffraction_domain : forall (p : prop RA) (v : nkey -> R) (d : R),
  values p [THA; GME; DLA; WN; DL0; DL1; QK; XHT; AHT; WD1; XD1; DH; AFO] v ->
  0 < v WN -> 0 < v DL0 -> 0 < v DL1 -> v DLA < d -> 0 < angle_at v d -> 0 < d -> 0 <= v DH -> 0 <= v WD1 -> 0 <= v XD1 ->
  (0 < rounded_x v d -> exists a, adiff RA d p = Ok (a, p)) /\ (rounded_x v d <= 0 -> adiff RA d p = Err NotReal).
Proof. exact adiff_domain. Qed.
Print Assumptions C60_diffraction_domain.
Theorem C60_line_of_sight_domain : forall (p : prop RA) (v : nkey -> R) (d : R), values p [DH; HE0; HE1; ZGR; ZGI; WN; EMD; AED; WIS] v ->
  0 < v WN -> 0 <= v DH -> 0 < v HE0 -> 0 < v HE1 -> 0 < v ZGR -> 0 < d ->
  (reflects v d -> alos RA d p = Ok (los_at v d)) /\ (~ reflects v d -> alos RA d p = Err ZeroDivisionError).
Proof. exact alos_domain. Qed.
Print Assumptions C60_line_of_sight_domain.
(** The conditions are needed, in Python's arithmetic too: sea water at 20 MHz below a high antenna makes lrprop
    return NaN without the error code 4; ground without conductivity makes alos raise ZeroDivisionError. *)
Theorem C60_conducting_ground_needed : exists q, lrprop TA (L 30000 1) case_sea = Ok q /\ pn q AREF = Some (PN S754_nan) /\ pz q KWX = Some 3%Z.
Proof. exact sea_nan. Qed.
Print Assumptions C60_conducting_ground_needed.
Theorem C60_reflection_needed : alos TA (PI 4) case_absorbing = Err ZeroDivisionError.
Proof. exact absorbing_fails. Qed.
Print Assumptions C60_reflection_needed.

(** The path of C06-C08 meets every condition of C60_area_calls; everyday inputs of C60_area_mode. *)
Example C60_case : pz case_real MDP = Some 1%Z /\ pz case_real KWX = Some 0%Z /\
  exists v, values case_real (ENS :: setup_inputs) v /\ physical v /\ ordinary v /\ ground_ok v /\ reference_params v false /\ los_ok v /\ scat_ok v.
Proof.
  split; [reflexivity|]. split; [reflexivity|]. destruct case_total as (v & A & B & C & D). exists v. split; [exact A|]. split; [exact B|]. split; [exact C|]. split; [exact (C60_ground v B C) | exact D].
Qed.
Example C60_area_case : area_ranges (fun k => match k with WN => 2 | GME => 117.7 / 1000000000 | HG0 => 5 | HG1 => 12 | DH => 90 | ZGR => 0.24 | ZGI => -0.14 | _ => 301 end).
Proof. exact area_ranges_case. Qed.
