(** Generic lemmas instantiated at the reals and at binary64, and small concrete runs. *)
From Verif Require Import Frame SpecLr PyFloat Cases PfFrame PfLrGen PfArea PfRuns.

Lemma c01_generic (A : arith) : (@n_Z A 0 <? #0)%num = false ->
  forall (d : num A) (p p' : prop A), lrprop A d p = Ok p' ->
  exists a, pn p' AREF = Some a /\ (a <? #0)%num = false.
Proof. intros Z d p p'. apply lrprop_aref_nonneg. assumption. Qed.
Lemma c01_real (d : R) (p p' : prop RA) : lrprop RA d p = Ok p' ->
  exists a : R, pn p' AREF = Some a /\ (0 <= a)%R.
Proof.
  intro H.
  assert (Z : (@n_Z RA 0 <? #0)%num = false) by (cbn; apply r_ltb_false; lra).
  destruct (c01_generic RA Z d p p' H) as [a [E L]].
  exists a. split; [assumption|]. cbn in L. apply r_ltb_false in L. exact L.
Qed.
Lemma c01_py (l : libm) (d : num (PyA l)) (p p' : prop (PyA l)) :
  lrprop (PyA l) d p = Ok p' -> exists a, pn p' AREF = Some a /\ (a <? #0)%num = false.
Proof. apply c01_generic. reflexivity. Qed.
Lemma c04_frame (A : arith) (d : num A) (p p' : prop A) : pz p MDP = Some 0%Z -> lrprop A d p = Ok p' ->
  same_except [DIST; AREF; AK1; AK2; AEL; AD; RR; ETQ; H0S; ASCAT1; EMS; DX; AES] [KWX; MDP] [WLOS; WSCAT] p p'.
Proof.
  intros M H. eapply fr_weaken; [|exact (lrprop_cont_frame A d p M p' H)]. reflexivity.
Qed.
Lemma c05_real m (p : prop RA) d0 ds q (d : R) q' (dlsa : R) :
  pz p MDP = Some m -> (0 < m)%Z -> lr_calls RA (d0 :: ds) p = Ok q -> lrprop RA d q = Ok q' ->
  pn q DLSA = Some dlsa ->
  (dlsa <= d)%R \/ ((0 < d < dlsa)%R /\ Forall (fun e : R => (dlsa <= e)%R) (d0 :: ds)) ->
  exists r, lrprop RA d p = Ok r /\ pn q' AREF = pn r AREF.
Proof.
  intros M L H Hd E C. eapply area_history; try eassumption. destruct C as [C|[C F]].
  - left. split; cbn; [apply r_ltb_false | apply r_leb_true]; assumption.
  - right. split.
    + repeat split; cbn; [apply r_ltb_true | apply r_leb_false | apply r_ltb_true | apply r_leb_false]; lra.
    + eapply Forall_impl; [|exact F]. intros e K. cbn. apply r_ltb_false. exact K.
Qed.
Lemma c02_case : exists p q r a, api_run p r /\ lrprop TA (PI 0) p = Ok q /\
  avar TA (PI 0) (PI 0) (PI 4) q = Ok (a, r) /\ pz p KWX = Some 0%Z /\ pz q KWX = Some 0%Z /\ pz r KWX = Some 2%Z.
Proof.
  set (p := setzs [(LVAR, 5); (KLIM, 9); (MDVAR, 12)]%Z (case_mobile (PI 10) (PI 20) (PI 13000) (PI 18000))).
  assert (H : on_ok (lrprop TA (PI 0) p) (fun q => on_ok (avar TA (PI 0) (PI 0) (PI 4) q) (fun r =>
     has_z q KWX 0 && has_z (snd r) KWX 2)) = true) by (vm_compute; reflexivity).
  apply on_ok_inv in H as [q [E1 H]]. apply on_ok_inv in H as [[a r] [E2 H]].
  apply andb_true_iff in H as [H1 H2]. exists p, q, r, a.
  split; [econstructor; [eapply step_lrprop; exact E1|]; econstructor; [eapply step_avar; exact E2|]; constructor|].
  repeat (split; [first [assumption | reflexivity | apply has_z_inv; assumption]|]). apply has_z_inv; assumption.
Qed.
