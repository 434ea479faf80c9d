(** Property theorems C41, C45: terminal geometry of area mode and environment parameters, over the reals. *)
From Verif Require Import RInst SpecTerminal Prep PfRealCases PfTerminal.
Open Scope R_scope.

(** * C41 *)
(** qlra never fails on positive heights and curvature and non-negative irregularity, and stores the reference values. *)
Theorem C41_total_values : forall k0 k1 (p : prop RA) v, qlra_entries p v ->
  let h0 := effective_height k0 (v HG0) (v DH) in let h1 := effective_height k1 (v HG1) (v DH) in
  exists q, qlra RA k0 k1 p = Ok q /\ pn q HE0 = Some h0 /\ pn q HE1 = Some h1
    /\ pn q DL0 = Some (rough_horizon h0 (v GME) (v DH)) /\ pn q DL1 = Some (rough_horizon h1 (v GME) (v DH))
    /\ pn q THE0 = Some (takeoff_angle h0 (v GME) (v DH)) /\ pn q THE1 = Some (takeoff_angle h1 (v GME) (v DH)).
Proof. exact qlra_values. Qed.
Print Assumptions C41_total_values.
(** Both terminals: 0..10 m above the structural height; horizon positive, at most the smooth-earth one, equal to it exactly
    on smooth terrain. *)
Theorem C41_geometry : forall k0 k1 (p q : prop RA) v, qlra_entries p v -> qlra RA k0 k1 p = Ok q -> forall hg he dl,
  In (hg, he, dl) [(HG0, HE0, DL0); (HG1, HE1, DL1)] ->
  exists h d, pn q he = Some h /\ pn q dl = Some d /\ v hg <= h <= v hg + 10
    /\ 0 < d <= sqrt (2 * h / v GME) /\ (v DH = 0 -> d = sqrt (2 * h / v GME)) /\ (0 < v DH -> d < sqrt (2 * h / v GME)).
Proof. exact qlra_geometry. Qed.
Print Assumptions C41_geometry.
(** Siting codes: nothing for a random site, strictly more for every better class, nothing else matters. *)
Theorem C41_siting_transmitter : forall k k' k1 (p q q' : prop RA) v h h', qlra_entries p v ->
  qlra RA k k1 p = Ok q -> qlra RA k' k1 p = Ok q' -> pn q HE0 = Some h -> pn q' HE0 = Some h' ->
  (siting_class k = 0%Z -> h = v HG0) /\ (siting_class k = siting_class k' -> h = h') /\
  ((siting_class k < siting_class k')%Z -> h < h').
Proof. exact qlra_siting. Qed.
Print Assumptions C41_siting_transmitter.
Theorem C41_siting_receiver : forall k k' k0 (p q q' : prop RA) v h h', qlra_entries p v ->
  qlra RA k0 k p = Ok q -> qlra RA k0 k' p = Ok q' -> pn q HE1 = Some h -> pn q' HE1 = Some h' ->
  (siting_class k = 0%Z -> h = v HG1) /\ (siting_class k = siting_class k' -> h = h') /\
  ((siting_class k < siting_class k')%Z -> h < h').
Proof. exact qlra_siting1. Qed.
Print Assumptions C41_siting_receiver.

Definition case_qlra : prop RA :=
  setz (setz (setz (realns [(HG0, 3); (HG1, 30); (DH, 90); (GME, 1177 / 10000000000)]) LVAR 0) MDVARX 12) KLIMX 5.
Example C41_case : exists v, qlra_entries case_qlra v /\ v HG0 = 3 /\ v DH = 90.
Proof.
  exists (fun k => match k with HG0 => 3 | HG1 => 30 | DH => 90 | _ => 1177 / 10000000000 end).
  split; [|split; reflexivity]. unfold qlra_entries. repeat split; try lra.
  - intros k [<-|[<-|[<-|[<-|[]]]]]; reflexivity.
  - exists 0%Z, 12%Z, 5%Z. repeat split; reflexivity.
Qed.

(** * C45 *)
(** qlrps never fails for a non-zero frequency (and, with vertical polarisation, a non-zero ground constant), and returns
    the wave number, the reduced curvature and refractivity, and the surface impedance whose square (times zq^2 for
    vertical polarisation) is zq - 1, on the principal branch. *)
Theorem C45_total_values : forall (fmhz zsys en0 eps sgm : R) (ipol : Z), fmhz <> 0 -> (ipol <> 0%Z -> eps <> 0 \/ sgm <> 0) ->
  let ens := en0 * exp (- zsys / 9460) in
  let zq := (eps, 376.62 * sgm / (fmhz / 47.7)) in
  exists zgnd, qlrps RA fmhz zsys en0 ipol eps sgm
      = Ok ((fmhz / 47.7)%R, (157 / 10 ^ 9 * (1 - 0.04665 * exp (ens / 179.3)))%R, ens, zgnd)
    /\ principal_root (eps - 1, snd zq) (if (ipol =? 0)%Z then zgnd else cmul zgnd zq).
Proof. exact qlrps_values. Qed.
Print Assumptions C45_total_values.
(** Raising the elevation lowers the refractivity and raises the curvature. *)
Theorem C45_elevation : forall (fmhz zsys zsys' en0 eps sgm w g e w' g' e' : R) ipol z z', 0 < en0 -> zsys < zsys' ->
  qlrps RA fmhz zsys en0 ipol eps sgm = Ok (w, g, e, z) -> qlrps RA fmhz zsys' en0 ipol eps sgm = Ok (w', g', e', z') ->
  e' < e /\ g < g'.
Proof. exact qlrps_decr. Qed.
Print Assumptions C45_elevation.
Theorem C45_curvature : forall (fmhz zsys en0 eps sgm w g e : R) ipol z,
  qlrps RA fmhz zsys en0 ipol eps sgm = Ok (w, g, e, z) -> g < 157 / 10 ^ 9 /\ (e <= 549 -> 0 < g).
Proof. exact qlrps_curv. Qed.
Print Assumptions C45_curvature.
Example C45_case : (573 <> 0)%R /\ (1%Z <> 0%Z -> (15 <> 0)%R \/ (0.005 <> 0)%R) /\ 0 < 301.
Proof. repeat split; intros; try left; lra. Qed.
