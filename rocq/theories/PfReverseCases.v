(** Concrete paths seen from both ends. *)
From Coq Require Import Lra Lia.
From Verif Require Import RTac SpecReverse Stats Prep Scripts PfHzns PfTerrainCases PyFloat Cases PfRuns Arith.
Open Scope R_scope.

(** Level ends, a dip in between. *)
Definition dip : profile RA := @Profile RA 4 100 [10; 10; 5; 10; 10].
Lemma dip_wf : well_formed dip.
Proof. unfold well_formed, dip. cbn. repeat split; try lia. change (num RA) with R. lra. Qed.
Lemma dip_length : path_length dip = 400.
Proof. unfold path_length, intervals, dip. cbn [pf_np pf_xi]. change (Z.to_nat 4) with 4%nat. cbn [INR]. lra. Qed.
Definition path_dict (f : profile RA) (hg0 hg1 gme : R) : prop RA := setpfl (setn (setn (setn (empty_prop RA) HG0 hg0) HG1 hg1) GME gme) f.
Definition path_v (hg0 hg1 gme : R) (k : nkey) : R := match k with HG0 => hg0 | HG1 => hg1 | _ => gme end.
Lemma path_dict_ok f hg0 hg1 gme : well_formed f -> 0 < hg0 -> 0 < hg1 -> 0 < gme -> path_entries (path_dict f hg0 hg1 gme) f (path_v hg0 hg1 gme).
Proof.
  intros W H0 H1 G. split; [reflexivity|]. split; [exact W|]. split; [intros k [<-|[<-|[<-|[]]]]; reflexivity|]. repeat split; assumption.
Qed.
Lemma path_dict_other f hg0 hg1 gme : other_way (path_dict f hg0 hg1 gme) (path_dict (reverse_profile f) hg1 hg0 gme).
Proof.
  split; [|exists f; split; reflexivity]. split; [intros []; intro N; reflexivity|]. split; [intros []; intro; reflexivity|]. split; [intros []; reflexivity|].
  split; intros [k K]; discriminate K.
Qed.
(** A list whose largest angle is attained by its element i only. *)
Lemma one_max l d a : In (d, a) l -> (forall d' a', In (d', a') l -> d' = d \/ a' < a) -> one_horizon l /\ (forall b e, largest_angle l b -> In (e, b) l -> e = d).
Proof.
  intros I M. assert (G : forall b e, largest_angle l b -> In (e, b) l -> e = d).
  { intros b e [[x X] B] E. destruct (M e b E) as [->|C]; [reflexivity|]. specialize (B d a I). lra. }
  split; [|exact G]. intros b e e' B E E'. rewrite (G b e B E), (G b e' B E'). reflexivity.
Qed.
Ltac four := match goal with J : (1 <= ?j < 4)%nat |- _ => destruct j as [|[|[|[|j]]]]; try lia end.
Lemma hill_s0 : In (200, sight_angle (1 / 10000000) 20 50 200) (sights0 hill 10 10 (1 / 10000000)) /\
  forall d' a', In (d', a') (sights0 hill 10 10 (1 / 10000000)) -> d' = 200 \/ a' < sight_angle (1 / 10000000) 20 50 200.
Proof.
  split.
  - apply in_sights. right. exists 2%nat. change (intervals hill) with 4%nat. split; [lia|]. change (pf_xi hill : R) with 100. try change (intervals hill) with 4%nat; try change (intervals dip) with 4%nat; unfold ground, hill. cbn. replace (2 * 100) with 200 by lra. replace ((1 + 1) * 100) with 200 by lra. replace (10 + 10) with 20 by lra. split; reflexivity.
  - intros d a I. apply in_sights in I as [[-> ->]|[j [J [-> ->]]]].
    + right. rewrite hill_length. change (intervals hill) with 4%nat. try change (intervals hill) with 4%nat; try change (intervals dip) with 4%nat; unfold sight_angle, ground, hill. cbn. lra.
    + change (intervals hill) with 4%nat in *. change (pf_xi hill : R) with 100. assert (J' : (1 <= j < 4)%nat) by lia. clear J. try change (intervals hill) with 4%nat; try change (intervals dip) with 4%nat; unfold sight_angle, ground, hill. four; cbn; [right; lra | left; lra | right; lra].
Qed.
Lemma hill_s1 : In (200, sight_angle (1 / 10000000) 20 50 200) (sights1 hill 10 10 (1 / 10000000)) /\
  forall d' a', In (d', a') (sights1 hill 10 10 (1 / 10000000)) -> d' = 200 \/ a' < sight_angle (1 / 10000000) 20 50 200.
Proof.
  split.
  - apply in_sights. right. exists 2%nat. change (intervals (reverse_profile hill)) with 4%nat. split; [lia|]. change (pf_xi (reverse_profile hill) : R) with 100. try change (intervals hill) with 4%nat; try change (intervals dip) with 4%nat; unfold ground, reverse_profile, hill. cbn. replace ((1 + 1) * 100) with 200 by lra. replace (10 + 10) with 20 by lra. split; reflexivity.
  - intros d a I. apply in_sights in I as [[-> ->]|[j [J [-> ->]]]].
    + right. rewrite length_rev, hill_length. change (intervals hill) with 4%nat. try change (intervals hill) with 4%nat; try change (intervals dip) with 4%nat; unfold sight_angle, ground, hill. cbn. lra.
    + change (intervals (reverse_profile hill)) with 4%nat in *. change (pf_xi (reverse_profile hill) : R) with 100. assert (J' : (1 <= j < 4)%nat) by lia. clear J. try change (intervals hill) with 4%nat; try change (intervals dip) with 4%nat; unfold sight_angle, ground, reverse_profile, hill. four; cbn; [right; lra | left; lra | right; lra].
Qed.
Lemma dip_s0 : In (400, sight_angle (1 / 10000000) 20 20 400) (sights0 dip 10 10 (1 / 10000000)) /\
  forall d' a', In (d', a') (sights0 dip 10 10 (1 / 10000000)) -> d' = 400 \/ a' < sight_angle (1 / 10000000) 20 20 400.
Proof.
  split.
  - apply in_sights. left. rewrite dip_length. try change (intervals hill) with 4%nat; try change (intervals dip) with 4%nat; unfold ground, dip. cbn. replace (10 + 10) with 20 by lra. split; reflexivity.
  - intros d a I. apply in_sights in I as [[-> ->]|[j [J [-> ->]]]].
    + left. apply dip_length.
    + change (intervals dip) with 4%nat in *. change (pf_xi dip : R) with 100. assert (J' : (1 <= j < 4)%nat) by lia. clear J. try change (intervals hill) with 4%nat; try change (intervals dip) with 4%nat; unfold sight_angle, ground, dip. four; cbn; right; lra.
Qed.
Lemma dip_s1 : In (400, sight_angle (1 / 10000000) 20 20 400) (sights1 dip 10 10 (1 / 10000000)) /\
  forall d' a', In (d', a') (sights1 dip 10 10 (1 / 10000000)) -> d' = 400 \/ a' < sight_angle (1 / 10000000) 20 20 400.
Proof.
  split.
  - apply in_sights. left. rewrite length_rev, dip_length. try change (intervals hill) with 4%nat; try change (intervals dip) with 4%nat; unfold ground, dip. cbn. replace (10 + 10) with 20 by lra. split; reflexivity.
  - intros d a I. apply in_sights in I as [[-> ->]|[j [J [-> ->]]]].
    + left. rewrite length_rev. apply dip_length.
    + change (intervals (reverse_profile dip)) with 4%nat in *. change (pf_xi (reverse_profile dip) : R) with 100. assert (J' : (1 <= j < 4)%nat) by lia. clear J. try change (intervals hill) with 4%nat; try change (intervals dip) with 4%nat; unfold sight_angle, ground, reverse_profile, dip. four; cbn; right; lra.
Qed.
Lemma hill_both : single_horizons hill 10 10 (1 / 10000000) /\ obstructed hill 10 10 (1 / 10000000).
Proof.
  destruct hill_s0 as [I0 M0], hill_s1 as [I1 M1]. destruct (one_max _ _ _ I0 M0) as [O0 G0], (one_max _ _ _ I1 M1) as [O1 G1]. split; [split; assumption|].
  intros a0 a1 d0 d1 A0 A1 D0 D1. rewrite (G0 a0 d0 A0 D0), (G1 a1 d1 A1 D1), hill_length. lra.
Qed.
Lemma dip_both : single_horizons dip 10 10 (1 / 10000000) /\ level_ends dip.
Proof.
  destruct dip_s0 as [I0 M0], dip_s1 as [I1 M1]. destruct (one_max _ _ _ I0 M0) as [O0 G0], (one_max _ _ _ I1 M1) as [O1 G1]. split; [split; assumption|]. split; reflexivity.
Qed.

(** ** Runs *)
Definition link (d h0 h1 : Z) : prop TA := setz (@setns TA [(FMHZ, PI 100); (DKM, PI d); (HG0, PI h0); (HG1, PI h1)] (empty_prop TA)) IPOL 0.
Lemma link_exchanged d h0 h1 : exchanged (link d h0 h1) (link d h1 h0).
Proof.
  split; [intros []; intro N; reflexivity|]. split; [intros []; intro; reflexivity|]. split; [intros []; reflexivity|]. split; intros [k K]; discriminate K.
Qed.
(** The losses of all rows of the first table are larger than those of the second by more than m. *)
Definition exceeds (m : num TA) (o o' : p2p_out TA) : bool :=
  forallb (fun rr => @n_ltb TA (@n_add TA (snd (snd rr)) m) (snd (fst rr))) (combine (out_rows TA o) (out_rows TA o')).
Definition mound_z : list (num TA) := map PI [0; 0; 0; 0; 0; 0; 0; 0; 0; 0; 20]%Z.
Lemma mound_direction : exists (z : list (num TA)) (p q : prop TA) o o', exchanged p q /\ itmlogic_p2p TA z p = Ok o /\ itmlogic_p2p TA (rev z) q = Ok o' /\
  length (out_rows TA o) = 15%nat /\ length (out_rows TA o') = 15%nat /\ exceeds (PI 8) o o' = true.
Proof.
  assert (C : match itmlogic_p2p TA mound_z (link 5 10 10), itmlogic_p2p TA (rev mound_z) (link 5 10 10) with
    | Ok o, Ok o' => (length (out_rows TA o) =? 15)%nat && (length (out_rows TA o') =? 15)%nat && exceeds (PI 8) o o' | _, _ => false end = true) by (vm_compute; reflexivity).
  destruct (itmlogic_p2p TA mound_z (link 5 10 10)) as [o|] eqn:E; [|discriminate]. destruct (itmlogic_p2p TA (rev mound_z) (link 5 10 10)) as [o'|] eqn:E'; [|discriminate].
  apply andb_prop in C as [C C2]. apply andb_prop in C as [C0 C1]. apply Nat.eqb_eq in C0. apply Nat.eqb_eq in C1.
  exists mound_z, (link 5 10 10), (link 5 10 10), o, o'. split; [apply link_exchanged|]. split; [exact E|]. split; [exact E'|]. split; [exact C0|]. split; [exact C1 | exact C2].
Qed.
(** Two points seen under the same angle from the receiver: its horizon is the further one, and the nearer one from the other
    end. *)
Definition ridge : list Z := [0; 0; 12; 11; 0]%Z.
Lemma ridge_direction : exists z (xi hg gme t0 t1 d0 d1 u0 u1 e0 e1 : num TA),
  hzns TA (Profile 4 xi z) (@n_mul TA (PI 4) xi) hg hg gme = Ok (t0, t1, d0, d1) /\
  hzns TA (Profile 4 xi (rev z)) (@n_mul TA (PI 4) xi) hg hg gme = Ok (u0, u1, e0, e1) /\ @n_eqb TA u0 t1 = true /\ @n_eqb TA d1 (@n_mul TA (PI 2) e0) = true.
Proof.
  assert (C : match hzns TA (@Profile TA 4 (PI 8) (map PI ridge)) (@n_mul TA (PI 4) (PI 8)) (PI 10) (PI 10) (PI 0), hzns TA (@Profile TA 4 (PI 8) (rev (map PI ridge))) (@n_mul TA (PI 4) (PI 8)) (PI 10) (PI 10) (PI 0) with
    | Ok (t0, t1, d0, d1), Ok (u0, u1, e0, e1) => @n_eqb TA u0 t1 && @n_eqb TA d1 (@n_mul TA (PI 2) e0) | _, _ => false end = true) by (vm_compute; reflexivity).
  exists (map PI ridge), (PI 8), (PI 10), (PI 0).
  destruct (hzns TA (@Profile TA 4 (PI 8) (map PI ridge)) _ _ _ _) as [[[[t0 t1] d0] d1]|] eqn:E; [|discriminate].
  destruct (hzns TA (@Profile TA 4 (PI 8) (rev (map PI ridge))) _ _ _ _) as [[[[u0 u1] e0] e1]|] eqn:E'; [|discriminate].
  apply andb_prop in C as [C0 C1]. exists t0, t1, d0, d1, u0, u1, e0, e1. split; [reflexivity|]. split; [exact E'|]. split; [exact C0 | exact C1].
Qed.
(** No loss of the second table differs by more than m from that of the first. *)
Definition within (m : num TA) (o o' : p2p_out TA) : bool :=
  forallb (fun rr => @n_ltb TA (snd (fst rr)) (@n_add TA (snd (snd rr)) m) && @n_ltb TA (snd (snd rr)) (@n_add TA (snd (fst rr)) m)) (combine (out_rows TA o) (out_rows TA o')).
Definition hilly : list (num TA) := map PI [0; 0; 0; 0; 30; 0; 40; 0; 5; 0; 2]%Z.
Lemma hilly_run : match itmlogic_p2p TA hilly (link 20 10 20), itmlogic_p2p TA (rev hilly) (link 20 20 10) with
  | Ok o, Ok o' => (length (out_rows TA o) =? 15)%nat && (length (out_rows TA o') =? 15)%nat && within (L 1 1000000) o o' | _, _ => false end = true.
Proof. vm_compute. reflexivity. Qed.
