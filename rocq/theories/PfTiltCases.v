(** Concrete paths over tilted terrain. *)
From Coq Require Import Lra Lia.
From Verif Require Import RTac SpecTilt Stats Prep Scripts PfHzns PfTerrainCases PfReverseCases PfTilt PfTilt2 PfTilt3 PyFloat Cases PfRuns Arith.
Open Scope R_scope.

(** A level path of 5 km and one of the same heights falling by 20 m per sample towards the receiver: both lines of sight. *)
Definition level_z : list (num TA) := map PI [0; 0; 0; 0; 0; 0; 0; 0; 0; 0; 0]%Z.
Definition falling_z : list (num TA) := map PI [200; 180; 160; 140; 120; 100; 80; 60; 40; 20; 0]%Z.
Definition los (o : p2p_out TA) : bool := match out_kind TA o with LineOfSight => true | _ => false end.
Definition slope_check (m : num TA) : bool := match itmlogic_p2p TA level_z (link 5 10 10), itmlogic_p2p TA falling_z (link 5 10 10) with
    | Ok o, Ok o' => los o && los o' && (length (out_rows TA o) =? 15)%nat && (length (out_rows TA o') =? 15)%nat && exceeds m o o' | _, _ => false end.
Lemma slope_refuted : exists o o', itmlogic_p2p TA level_z (link 5 10 10) = Ok o /\ itmlogic_p2p TA falling_z (link 5 10 10) = Ok o' /\
  out_kind TA o = LineOfSight /\ out_kind TA o' = LineOfSight /\ length (out_rows TA o) = 15%nat /\ length (out_rows TA o') = 15%nat /\ exceeds (PI 8) o o' = true.
Proof.
  assert (C : slope_check (PI 8) = true) by (vm_compute; reflexivity). unfold slope_check in C.
  destruct (itmlogic_p2p TA level_z (link 5 10 10)) as [o|]; [|discriminate]. destruct (itmlogic_p2p TA falling_z (link 5 10 10)) as [o'|]; [|discriminate].
  apply andb_prop in C as [C C4]. apply andb_prop in C as [C C3]. apply andb_prop in C as [C C2]. apply andb_prop in C as [C0 C1]. apply Nat.eqb_eq in C2, C3. unfold los in C0, C1.
  exists o, o'. split; [reflexivity|]. split; [reflexivity|]. destruct (out_kind TA o); try discriminate. destruct (out_kind TA o'); try discriminate. auto.
Qed.

(** One peak half way between level ends. *)
Definition peak (x H : R) : profile RA := @Profile RA 2 x [0; H; 0].
Lemma peak_wf x H : 0 < x -> well_formed (peak x H).
Proof. intro. unfold well_formed, peak. cbn. repeat split; try lia. exact H0. Qed.
Lemma peak_sights x H h0 h1 g d a : In (d, a) (sights0 (peak x H) h0 h1 g) -> (d = 2 * x /\ a = sight_angle g (0 + h0) (0 + h1) (2 * x)) \/ (d = x /\ a = sight_angle g (0 + h0) H x).
Proof.
  intro I. apply in_sights in I as [[-> ->]|[j [J [-> ->]]]].
  - left. unfold path_length. change (intervals (peak x H)) with 2%nat. change (pf_xi (peak x H) : R) with x. cbn. replace ((1 + 1) * x) with (2 * x) by ring. auto.
  - right. change (intervals (peak x H)) with 2%nat in J. assert (j = 1%nat) as -> by lia. change (pf_xi (peak x H) : R) with x. cbn. rewrite Rmult_1_l. auto.
Qed.
Lemma peak_sees x H h0 h1 g : In (x, sight_angle g (0 + h0) H x) (sights0 (peak x H) h0 h1 g).
Proof. apply in_sights. right. exists 1%nat. change (intervals (peak x H)) with 2%nat. split; [lia|]. change (pf_xi (peak x H) : R) with x. cbn. rewrite Rmult_1_l. auto. Qed.
Lemma peak_rev x H h0 h1 g : sights1 (peak x H) h0 h1 g = sights0 (peak x H) h1 h0 g.
Proof. reflexivity. Qed.
Lemma peak_far x H h0 h1 g d a : 0 < x -> 0 <= g -> h0 + h1 < 2 * H -> largest_angle (sights0 (peak x H) h0 h1 g) a -> In (d, a) (sights0 (peak x H) h0 h1 g) -> d = x.
Proof.
  intros X G HH [_ M] I. apply peak_sights in I as [[-> ->]|[-> _]]; [|reflexivity]. exfalso. specialize (M _ _ (peak_sees x H h0 h1 g)). unfold sight_angle in M.
  assert (E : (H - (0 + h0)) / x - g / 2 * x - ((0 + h1 - (0 + h0)) / (2 * x) - g / 2 * (2 * x)) = (2 * H - h0 - h1) / (2 * x) + g * x / 2) by (field; lra).
  assert (0 < (2 * H - h0 - h1) / (2 * x)) by (apply Rdiv_lt_0_compat; lra). assert (0 <= g * x) by (apply Rmult_le_pos; lra). lra.
Qed.
Lemma peak_obstructed x H h0 h1 g : 0 < x -> 0 <= g -> h0 + h1 < 2 * H -> obstructed (peak x H) h0 h1 g.
Proof.
  intros X G HH a0 a1 d0 d1 A0 A1 I0 I1. rewrite peak_rev in A1, I1. rewrite (peak_far x H h0 h1 g d0 a0) by assumption. rewrite (peak_far x H h1 h0 g d1 a1) by (assumption || lra).
  unfold path_length. change (intervals (peak x H)) with 2%nat. change (pf_xi (peak x H) : R) with x. cbn. lra.
Qed.
