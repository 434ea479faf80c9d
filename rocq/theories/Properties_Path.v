(** C63: the terrain profile sampled between transmitter and receiver. *)
From Verif Require Import RInst SpecPath TerrainPath PfPath PyFloat Cases.
Open Scope R_scope.

(** The profile holds the elevations of 2 to 600 points on the straight line at the fractions 0, 1/n, ..., (n-1)/n of the way, the
    first one the transmitter; the distance is the geodesic one in km.  [geod]: geodesic length in metres; [dem]: the elevation model. *)
Theorem C63_samples : forall (geod : (R * R) * (R * R) -> R) (dem : R * R -> option R) (a b : R * R) (h : R * R -> R),
  0 <= geod (a, b) -> (forall u, 0 <= u < 1 -> dem (on_way a b u) = Some (h (on_way a b u))) ->
  exists n, (2 <= n <= 600)%nat /\ determine_num_samples RA (geod (a, b)) = Ok (Z.of_nat n) /\
    terrain_p2p RA geod dem (straight_line_from_points RA a b) =
      Ok (map (fun k => h (on_way a b (part k n))) (seq 0 n), geod (a, b) / 1000,
          map (fun k => (on_way a b (part k n), h (on_way a b (part k n)))) (seq 0 n)).
Proof. exact path_samples. Qed.
Print Assumptions C63_samples.
(** A sampling point outside the elevation model: TypeError, no profile. *)
Theorem C63_outside : forall (geod : (R * R) * (R * R) -> R) (dem : R * R -> option R) (a b : R * R), 0 <= geod (a, b) ->
  (exists n k, determine_num_samples RA (geod (a, b)) = Ok (Z.of_nat n) /\ (k < n)%nat /\ dem (on_way a b (part k n)) = None) ->
  terrain_p2p RA geod dem (a, b) = Err TypeError.
Proof. exact path_hole. Qed.
Print Assumptions C63_outside.
(** Full statement: the profile from the other end is the same profile reversed.  Proved: all but the two ends agree, one sample
    apart; false: the whole profile, for every two points and some terrain between them. *)
Theorem C63_other_end_partial : forall (geod : (R * R) * (R * R) -> R) (dem : R * R -> option R) (a b : R * R) (h : R * R -> R),
  0 <= geod (a, b) -> geod (b, a) = geod (a, b) -> (forall q, dem q = Some (h q)) ->
  exists n prof km feats prof' feats', (2 <= n)%nat /\ length prof = n /\ length prof' = n /\
    terrain_p2p RA geod dem (a, b) = Ok (prof, km, feats) /\ terrain_p2p RA geod dem (b, a) = Ok (prof', km, feats') /\
    nth_error prof 0 = Some (h a) /\ nth_error prof' 0 = Some (h b) /\
    forall k, (0 < k < n)%nat -> nth_error prof' k = nth_error prof (n - k).
Proof. exact path_back. Qed.
Print Assumptions C63_other_end_partial.
Theorem C63_other_end_refuted : forall (geod : (R * R) * (R * R) -> R) (a b : R * R), a <> b -> 0 <= geod (a, b) -> geod (b, a) = geod (a, b) ->
  exists h : R * R -> R, forall prof km feats prof' km' feats',
    terrain_p2p RA geod (fun q => Some (h q)) (a, b) = Ok (prof, km, feats) -> terrain_p2p RA geod (fun q => Some (h q)) (b, a) = Ok (prof', km', feats') ->
    prof' <> rev prof.
Proof. exact path_other_end. Qed.
Print Assumptions C63_other_end_refuted.
(** Full statement: p2p.py, given the profile and the distance, takes each elevation at the distance where it was sampled.  False:
    the k-th one is taken k * distance / (n (n - 1)) further out, the last one at the receiver although it was sampled distance / n
    short of it. *)
Theorem C63_placement_refuted : forall (geod : (R * R) * (R * R) -> R) (dem : R * R -> option R) (a b : R * R) (h : R * R -> R),
  0 <= geod (a, b) -> (forall q, dem q = Some (h q)) ->
  exists n prof km feats f, (2 <= n <= 600)%nat /\ terrain_p2p RA geod dem (a, b) = Ok (prof, km, feats) /\
    (0 < geod (a, b) -> p2p_profile RA km prof = Ok f /\ pf_xi f = geod (a, b) / INR (n - 1) /\
      forall k, (k < n)%nat -> nth_error prof k = Some (h (on_way a b (part k n))) /\
        INR k * pf_xi f - part k n * geod (a, b) = INR k * geod (a, b) / (INR n * INR (n - 1))).
Proof. exact path_place. Qed.
Print Assumptions C63_placement_refuted.

(** A path of (almost) no geodesic length in Python's arithmetic: two samples, the transmitter and half way. *)
Example C63_case : match terrain_p2p TA (fun _ => PI 0) (fun q => Some (fst q)) ((PI 1, PI 2), (PI 4, PI 6)) with
  | Ok (prof, km, [(q0, _); (q1, _)]) => @n_eqb TA (fst q0) (PI 1) && @n_eqb TA (snd q0) (PI 2) && @n_eqb TA (fst q1) (L 5 2) && @n_eqb TA (snd q1) (PI 4)
  | _ => false end = true.
Proof. vm_compute. reflexivity. Qed.
(** Points and lengths meeting the hypotheses: city-block distance in the plane. *)
Example C63_case_real : let geod := fun l : (R * R) * (R * R) => Rabs (fst (fst l) - fst (snd l)) + Rabs (snd (fst l) - snd (snd l)) in
  let a := (0, 0) in let b := (300, 400) in a <> b /\ 0 <= geod (a, b) /\ geod (b, a) = geod (a, b) /\ 0 < geod (a, b).
Proof. exact plane_case. Qed.
