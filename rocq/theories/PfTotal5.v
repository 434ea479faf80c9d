(** Where the conditions of PfTotal4 fail; the domains of adiff and alos. *)
From Verif Require Import RInst Frame RTac PfLrGen PfRegime PfAtten PfAvarReal SpecTotal PfTotal PfTotal2 PfTotal3 LrProp Arith.
Open Scope R_scope.

Lemma adiff_domain (p : prop RA) v (d : R) : values p at_keys v ->
  0 < v WN -> 0 < v DL0 -> 0 < v DL1 -> v DLA < d -> 0 < angle_at v d -> 0 < d -> 0 <= v DH -> 0 <= v WD1 -> 0 <= v XD1 ->
  (0 < rounded_x v d -> exists a, adiff RA d p = Ok (a, p)) /\ (rounded_x v d <= 0 -> adiff RA d p = Err NotReal).
Proof.
  intros V W L0 L1 D A D0 H W1 X1.
  assert (K := at_head p v d (fun m => (0 < rounded_x v d -> exists a, m = Ok a) /\ (rounded_x v d <= 0 -> m = Err NotReal)) V W L0 L1 D A D0 H W1 X1).
  cbv beta in K. destruct K as [K1 K2].
  - intros P a. split; [eauto | lra].
  - intro P. split; [lra | reflexivity].
  - unfold adiff. cbn [RA n_div n_Z n_eqb]. rewrite r_div_ok by lra. cbn [bind]. unfold r_eqb. destruct (Req_EM_T d 0) as [E|_]; [lra|].
    change (num RA) with R in *. split; intro P.
    + destruct (K1 P) as [a E]. exists a. rewrite E. reflexivity.
    + rewrite (K2 P). reflexivity.
Qed.
Lemma alos_domain (p : prop RA) (v : nkey -> R) (d : R) : values p [DH; HE0; HE1; ZGR; ZGI; WN; EMD; AED; WIS] v ->
  0 < v WN -> 0 <= v DH -> 0 < v HE0 -> 0 < v HE1 -> 0 < v ZGR -> 0 < d ->
  (reflects v d -> alos RA d p = Ok (los_at v d)) /\ (~ reflects v d -> alos RA d p = Err ZeroDivisionError).
Proof. intros. split; intro; [apply alos_total | apply (alos_absorbed p v d)]; assumption. Qed.
