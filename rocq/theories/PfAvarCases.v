(** Concrete avar runs, and corollaries in the form of the property statements. *)
From Verif Require Import Frame SpecAvar PfAvarGen PfAvarApi PfRuns Cases.

Lemma avar_mode_doc (A : arith) t l c (p : prop A) a q lv m (pp interf : bool) :
  avar A t l c p = Ok (a, q) -> pz p LVAR = Some lv -> (3 < lv)%Z -> (0 <= m <= 3)%Z ->
  pz p MDVAR = Some (m + (if pp then 10 else 0) + (if interf then 20 else 0))%Z ->
  pz q KDV = Some m /\ pb q WL = Some pp /\ pb q WS = Some interf.
Proof.
  intros H E L M V. assert (S := avar_mode_api A t l c p a q lv _ H E L V). cbv zeta in S.
  replace (20 <=? _)%Z with interf in S by (destruct pp, interf; lia).
  set (m1 := if interf then _ else _) in S.
  assert (E1 : m1 = (m + if pp then 10 else 0)%Z) by (unfold m1; destruct interf; lia). rewrite E1 in S.
  replace (10 <=? m + (if pp then 10 else 0))%Z with pp in S by (destruct pp; lia).
  set (m2 := if pp then _ else _) in S.
  assert (E2 : m2 = m) by (unfold m2; destruct pp; lia). rewrite E2 in S.
  destruct S as [S1 [S2 [_ [_ S3]]]].
  replace ((0 <=? m)%Z && (m <=? 3)%Z) with true in S3 by lia. auto.
Qed.
Lemma av_klim_total_kwx (A : arith) (p : prop A) k x : pz p KLIM = Some k -> pz p KWX = Some x ->
  exists q, av_klim A p = Ok q.
Proof. intros K X. eapply av_klim_total; eauto. Qed.

(** The dictionary of test_p2p after qlrpfl, as entries avar reads. *)
Definition case_avar : prop TA :=
  setzs [(LVAR, 5); (KLIM, 5); (MDVAR, 3); (KWX, 0)]%Z
    (setns [(AREF, L 33375 1000); (DIST, PI 77800); (HE0, L 2405 10); (HE1, L 184 10); (WN, L 87 100); (DH, L 892 10)]
       (empty_prop TA)).
Lemma broadcast_all :
  exists (p : prop TA) a at' al ac q, pz q KDV = Some 3%Z /\
    avar TA (PI 1) (PI 1) (PI 1) p = Ok (a, q) /\
    (exists q', avar TA (PI 2) (PI 1) (PI 1) p = Ok (at', q')) /\ (at' =? a)%num = false /\
    (exists q', avar TA (PI 1) (PI 2) (PI 1) p = Ok (al, q')) /\ (al =? a)%num = false /\
    (exists q', avar TA (PI 1) (PI 1) (PI 2) p = Ok (ac, q')) /\ (ac =? a)%num = false.
Proof.
  assert (H : on_ok (avar TA (PI 1) (PI 1) (PI 1) case_avar) (fun r0 => on_ok (avar TA (PI 2) (PI 1) (PI 1) case_avar) (fun r1 =>
     on_ok (avar TA (PI 1) (PI 2) (PI 1) case_avar) (fun r2 => on_ok (avar TA (PI 1) (PI 1) (PI 2) case_avar) (fun r3 =>
       has_z (snd r0) KDV 3 && negb (n_eqb (fst r1) (fst r0)) && negb (n_eqb (fst r2) (fst r0)) && negb (n_eqb (fst r3) (fst r0))))))
     = true) by (vm_compute; reflexivity).
  apply on_ok_inv in H as [[a q] [E0 H]]. apply on_ok_inv in H as [[a1 q1] [E1 H]].
  apply on_ok_inv in H as [[a2 q2] [E2 H]]. apply on_ok_inv in H as [[a3 q3] [E3 H]]. cbn [fst snd] in H.
  apply andb_true_iff in H as [H H3]. apply andb_true_iff in H as [H H2]. apply andb_true_iff in H as [H H1].
  apply negb_true_iff in H1, H2, H3. apply has_z_inv in H.
  exists case_avar, a, a1, a2, a3, q. split; [exact H|]. split; [exact E0|].
  split; [exact (ex_intro _ q1 E1)|]. split; [exact H1|]. split; [exact (ex_intro _ q2 E2)|]. split; [exact H2|].
  split; [exact (ex_intro _ q3 E3)|]. exact H3.
Qed.
