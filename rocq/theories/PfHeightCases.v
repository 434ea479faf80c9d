(** Antennas raised by a millimetre, in binary64. *)
From Verif Require Import SpecHeight PyFloat Cases PfRuns Arith.
Open Scope R_scope.

Definition same_zone (a b : zone) : bool := match a, b with Sight, Sight | Diffraction, Diffraction | Scatter, Scatter => true | _, _ => false end.
Lemma same_zone_eq a b : same_zone a b = true -> a = b.
Proof. destruct a, b; try reflexivity; discriminate. Qed.
Definition worse (m : num TA) (z : zone) (a b : res (num TA * Z * zone)) : bool :=
  match a, b with Ok (x, k, y), Ok (x', k', y') => (k =? 0)%Z && (k' =? 0)%Z && same_zone y z && same_zone y' z && @n_ltb TA (@n_add TA x m) x' | _, _ => false end.
Lemma worse_inv m z r s : worse m z r s = true -> exists a b, r = Ok (a, 0%Z, z) /\ s = Ok (b, 0%Z, z) /\ @n_ltb TA (@n_add TA a m) b = true.
Proof.
  unfold worse. destruct r as [[[x k] y]|]; [|discriminate]. destruct s as [[[x' k'] y']|]; [|discriminate]. rewrite !Bool.andb_true_iff. intros [[[[H1 H2] H3] H4] H5].
  apply Z.eqb_eq in H1. apply Z.eqb_eq in H2. apply same_zone_eq in H3. apply same_zone_eq in H4. subst. exists x, x'. auto.
Qed.
Lemma sight_jump : exists a b, area_reference TA (PI 150) (PI 120) (L 92734 1000) (PI 40000) (PI 90) (PI 15) (L 5 1000) 0 = Ok (a, 0%Z, Sight) /\
  area_reference TA (PI 150) (PI 120) (L 92735 1000) (PI 40000) (PI 90) (PI 15) (L 5 1000) 0 = Ok (b, 0%Z, Sight) /\ @n_ltb TA (@n_add TA a (PI 7)) b = true.
Proof. apply worse_inv. vm_compute. reflexivity. Qed.
Lemma water_jump : exists a b, area_reference TA (PI 45) (PI 30) (L 65541 1000) (PI 80000) (PI 0) (PI 81) (L 1 100) 1 = Ok (a, 0%Z, Diffraction) /\
  area_reference TA (PI 45) (PI 30) (L 65542 1000) (PI 80000) (PI 0) (PI 81) (L 1 100) 1 = Ok (b, 0%Z, Diffraction) /\ @n_ltb TA (@n_add TA a (PI 3)) b = true.
Proof. apply worse_inv. vm_compute. reflexivity. Qed.
Lemma scatter_jump : exists a b, area_reference TA (PI 200) (PI 80) (L 2024 1000) (PI 100000) (PI 0) (PI 4) (L 1 1000) 0 = Ok (a, 0%Z, Scatter) /\
  area_reference TA (PI 200) (PI 80) (L 2025 1000) (PI 100000) (PI 0) (PI 4) (L 1 1000) 0 = Ok (b, 0%Z, Scatter) /\ @n_ltb TA (@n_add TA a (PI 3)) b = true.
Proof. apply worse_inv. vm_compute. reflexivity. Qed.
