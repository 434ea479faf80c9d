(** A dictionary over the reals that meets the hypotheses of the avar theorems. *)
From Verif Require Import RInst SpecQuant PfAvarReal PfAvarApi PfRealCases.
Open Scope R_scope.
Definition case_stat (mdvar lv : Z) : prop RA :=
  setz (setz (setz (setz (realns [(WN, 2); (HE0, 5); (HE1, 30); (DIST, 60000); (DH, 90); (AREF, 25)]) LVAR lv) KLIM 5) KWX 0) MDVAR mdvar.
Lemma case_stat_inputs mdvar lv : avar_inputs (case_stat mdvar lv).
Proof.
  exists lv, 5%Z, 0%Z, mdvar. repeat (split; [reflexivity|]).
  exists (fun k => match k with WN => 2 | HE0 => 5 | HE1 => 30 | DIST => 60000 | DH => 90 | _ => 25 end).
  split; [|cbn; lra]. intros k I. cbn in I. repeat destruct I as [<-|I]; try contradiction; reflexivity.
Qed.
Lemma case_stat_full mdvar : stat_state (case_stat mdvar 5).
Proof. apply (st_full (case_stat mdvar 5) 5); [reflexivity | lia]. Qed.
Lemma case_stat_runs mdvar (t l c : R) : exists a q, avar RA t l c (case_stat mdvar 5) = Ok (a, q).
Proof. apply C27_total; [apply case_stat_full | apply case_stat_inputs]. Qed.
Lemma case_stat_mode m (t l c : R) : (0 <= m <= 3)%Z -> exists a q, avar RA t l c (case_stat m 5) = Ok (a, q) /\ pz q KDV = Some m.
Proof.
  intro M. destruct (case_stat_runs m t l c) as (a & q & H). exists a, q. split; [exact H|].
  destruct (avar_mode_api RA t l c (case_stat m 5) a q 5 m H eq_refl eq_refl eq_refl) as (_ & _ & _ & _ & K).
  replace (20 <=? m)%Z with false in K by lia. replace (10 <=? m)%Z with false in K by lia.
  replace ((0 <=? m)%Z && (m <=? 3)%Z)%bool with true in K by lia. exact K.
Qed.
(** After a call, the reference attenuation and the distance are edited and lvar is set to 1. *)
Lemma case_stat_next : exists p, stat_state p /\ pz p LVAR = Some 1%Z /\ avar_inputs p.
Proof.
  destruct (case_stat_runs 3 0 0 0) as (a & q & H).
  destruct (C27_effects RA _ _ _ _ _ _ 5 H eq_refl) as [_ (Fn & Fz & _)].
  exists (setz (setz (setn (setn q DIST ((70000)%R : num RA)) AREF ((31)%R : num RA)) LVAR 1) KWX 0). split; [|split].
  - eapply st_next; [apply case_stat_full | exact H |]. split; [|split]; intros k I; cbn in I; repeat destruct I as [<-|I]; try contradiction; reflexivity.
  - reflexivity.
  - assert (exists kl, pz q KLIM = Some kl) as [kl KL].
    { destruct (avar_klim_api RA _ _ _ _ _ _ 5 5 H eq_refl eq_refl eq_refl) as (_ & K & _). eauto. }
    exists 1%Z, kl, 0%Z, 3%Z. split; [reflexivity|]. split; [exact KL|]. split; [reflexivity|]. split; [cbn; rewrite Fz by (cbn; intuition congruence); reflexivity|].
    exists (fun k => match k with WN => 2 | HE0 => 5 | HE1 => 30 | DIST => 70000 | DH => 90 | _ => 31 end).
    split; [|cbn; lra]. intros k I. cbn in I. repeat destruct I as [<-|I]; try contradiction; cbn; try reflexivity; rewrite Fn by (cbn; intuition congruence); reflexivity.
Qed.
