(** The exchanged terminals: consequences and concrete runs. *)
From Interval Require Import Tactic.
From Verif Require Import RTac RInst SpecSwap LrProp PfLrGen PfSwap PfRealRun PyFloat Cases PfRuns.
Open Scope R_scope.

Lemma hn_exchanged (p q : prop RA) : exchanged p q -> heights_nonzero p -> heights_nonzero q.
Proof. intros (S & _) [N0 N1]. unfold heights_nonzero. rewrite !S by discriminate. split; assumption. Qed.
Lemma sw_fails (d : R) (p q : prop RA) : exchanged p q -> heights_nonzero p ->
  ((exists e, lrprop RA d p = Err e) <-> (exists e, lrprop RA d q = Err e)).
Proof.
  assert (G : forall p q : prop RA, exchanged p q -> heights_nonzero p -> (exists e, lrprop RA d q = Err e) -> exists e, lrprop RA d p = Err e).
  { clear p q. intros p q S N [e E]. destruct (lrprop RA d p) as [p'|e'] eqn:P; [|eauto]. destruct (sw_lrprop _ _ _ _ S N P) as (q' & Q & _). rewrite Q in E. discriminate. }
  intros S N. split; [|apply G; assumption]. apply G; [apply ex_sym, S | eapply hn_exchanged; eassumption].
Qed.
Lemma sw_aref (d : R) (p q p' : prop RA) : exchanged p q -> heights_nonzero p -> lrprop RA d p = Ok p' ->
  exists q', lrprop RA d q = Ok q' /\
    (forall k, In k [AREF; DLSA; DLA; THA; DIST; DMIN; EMD; AED; WIS; XAE; AK1; AK2; AEL; DX; EMS; AES] -> pn q' k = pn p' k) /\ pn q' DLS0 = pn p' DLS1 /\ pn q' DLS1 = pn p' DLS0.
Proof.
  intros S N H. destruct (sw_lrprop _ _ _ _ S N H) as (q' & Q & S' & _). exists q'. split; [exact Q|]. split.
  - intros k I. cbn in I. repeat (destruct I as [<-|I]; [rewrite S' by discriminate; reflexivity|]). destruct I.
  - rewrite !S' by discriminate. auto.
Qed.
Definition case_real_exchanged : prop RA :=
  setz (setz (fold_left (fun (p : prop RA) (kv : nkey * R) => setn p (fst kv) (snd kv))
    [(HG0, 12); (HG1, 5); (HE0, 12); (HE1, 5); (DL0, 13000); (DL1, 8000); (THE0, -2/1000); (THE1, -1/1000);
     (WN, 2); (ENS, 301); (DH, 50); (GME, 1177 / 10000000000); (ZGR, 2415 / 10000); (ZGI, -144/1000)] (empty_prop RA)) MDP 1) KWX 0.
Lemma case_exchanged : exchanged case_real case_real_exchanged.
Proof.
  split; [intros []; intro N; cbn; reflexivity|]. split; [intros []; intros; cbn; reflexivity|]. split; [intros []; cbn; reflexivity|].
  split; intros _; exists 0%Z; reflexivity.
Qed.
Lemma case_heights : heights_nonzero case_real.
Proof. split; intro E; injection E; lra. Qed.
Lemma case_short : short_horizons case_real.
Proof.
  exists 5, 12, 8000, 13000, (1177 / 10000000000). repeat split.
  intros he dl [<-|[<-|[]]] [<-|[<-|[]]]; interval with (i_prec 60).
Qed.
Lemma kwx_exchange : exists p q p' q' : prop TA, exchanged p q /\ pz p KWX = pz q KWX /\ lrprop TA (PI 0) p = Ok p' /\ lrprop TA (PI 0) q = Ok q' /\
  pz p' KWX = Some 3%Z /\ pz q' KWX = Some 0%Z.
Proof.
  assert (A : on_ok (lrprop TA (PI 0) mob) (fun p => has_z p KWX 3) = true) by (vm_compute; reflexivity).
  assert (B : on_ok (lrprop TA (PI 0) mob_swapped) (fun p => has_z p KWX 0) = true) by (vm_compute; reflexivity).
  apply on_ok_inv in A as [p' [A A']]. apply on_ok_inv in B as [q' [B B']]. exists mob, mob_swapped, p', q'.
  split. { split; [intros []; intro N; vm_compute; reflexivity|]. split; [intros []; intros; vm_compute; reflexivity|]. split; [intros []; vm_compute; reflexivity|]. split; intros _; exists 0%Z; reflexivity. }
  split; [vm_compute; reflexivity|]. split; [exact A|]. split; [exact B|]. split; apply has_z_inv; assumption.
Qed.
