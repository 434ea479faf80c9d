(** Cases of C60. *)
From Interval Require Import Tactic.
From Verif Require Import RInst SpecTotal PyFloat Cases.
Open Scope R_scope.
Lemma area_ranges_case : area_ranges (fun k => match k with WN => 2 | GME => 117.7 / 1000000000 | HG0 => 5 | HG1 => 12 | DH => 90 | ZGR => 0.24 | ZGI => -0.14 | _ => 301 end).
Proof. unfold area_ranges. cbv beta iota. repeat split; try lra. replace 0.24 with (24 / 100) by lra. replace (-0.14) with (-14 / 100) by lra. interval with (i_prec 53). Qed.
Close Scope R_scope.
Open Scope Z_scope.
(** Two antennas at 1000 m, horizons at 6.5 km, sea water at 20 MHz. *)
Definition case_sea : prop TA :=
  setzs [(MDP, 1); (KWX, 0)]
    (setns [(HG0, L 1000 1); (HG1, L 1000 1); (HE0, L 1000 1); (HE1, L 1000 1); (DL0, L 6500 1); (DL1, L 6500 1); (THE0, L 3 1000); (THE1, L 4 1000);
            (WN, L 42 100); (ENS, PI 301); (DH, PI 50); (GME, L 117700 1000000000000); (ZGR, L 105 10000); (ZGI, L (-1049) 100000)] (empty_prop TA)).
(** Grazing angle with sine 3/5 = zgnd. *)
Definition case_absorbing : prop TA :=
  setns [(WN, L 42 100); (DH, PI 50); (HE0, L 1 1); (HE1, L 2 1); (ZGR, L 6 10); (ZGI, PI 0); (EMD, L 1 1000); (AED, L 5 1); (WIS, L 1 10)] (empty_prop TA).
Definition is_nan (x : num TA) : bool := match x with PN S754_nan => true | _ => false end.
Lemma sea_run : on_ok (lrprop TA (L 30000 1) case_sea) (fun q => has_n q AREF is_nan && has_z q KWX 3)%bool = true.
Proof. vm_compute. reflexivity. Qed.
Lemma sea_nan : exists q, lrprop TA (L 30000 1) case_sea = Ok q /\ pn q AREF = Some (PN S754_nan) /\ pz q KWX = Some 3.
Proof.
  assert (H := sea_run). unfold on_ok in H. destruct (lrprop TA (L 30000 1) case_sea) as [q|e]; [|discriminate]. exists q. split; [reflexivity|].
  apply andb_prop in H as [H1 H2]. unfold has_n in H1. unfold has_z in H2. destruct (pn q AREF) as [x|]; [|discriminate]. destruct (pz q KWX) as [z|]; [|discriminate].
  apply Z.eqb_eq in H2. subst z. split; [|reflexivity]. destruct x as [| | []]; try discriminate. reflexivity.
Qed.
Definition is_zerodiv {T} (m : res T) : bool := match m with Err ZeroDivisionError => true | _ => false end.
Lemma absorbing_run : is_zerodiv (alos TA (PI 4) case_absorbing) = true.
Proof. vm_compute. reflexivity. Qed.
Lemma absorbing_fails : alos TA (PI 4) case_absorbing = Err ZeroDivisionError.
Proof. assert (H := absorbing_run). destruct (alos TA (PI 4) case_absorbing) as [|[]]; try discriminate. reflexivity. Qed.
