(** The statements of C74 for lrprop and avar, and a case. *)
From Coq Require Import Lra Lia.
From Verif Require Import RInst Frame RTac SpecLr SpecAvar SpecQuant SpecLoss PfLrGen PfArea PfAtten PfAvarReal PfStats PfSetup PfRealRun PfTotal3 PfTotal4 PfLoss Stats LrProp Dict Arith.
Open Scope R_scope.

Lemma lrprop_formula (d x : R) (p q : prop RA) m : pz p MDP = Some m -> m <> 0%Z -> lrprop RA d p = Ok q -> pn q DIST = Some x -> 0 < x ->
  exists v, values p setup_inputs v /\ values q setup_keys v /\ reference_params v (m <? 0)%Z /\ regime_params v x /\ pn q AREF = Some (attenuation_at v x).
Proof.
  intros M N H D P. destruct (lrprop_complete d x p q m M N H D P) as (V & W & R & G & A). exists (vals q). split; [exact V|]. split; [intros k I; apply W; right; exact I|]. auto.
Qed.
Lemma avar_formula (p : prop RA) lv k m : pz p LVAR = Some lv -> (4 < lv)%Z -> pz p KLIM = Some k -> pz p MDVAR = Some m ->
  (exists (t l c a : R) q, avar RA t l c p = Ok (a, q)) ->
  exists v, (forall key x, ~ In key cache_n -> pn p key = Some x -> v key = x) /\ full_statistics (climate_used k) m v /\
    forall (t l c a : R) q, avar RA t l c p = Ok (a, q) -> a = attenuation_for v m t l c.
Proof.
  intros L G K M (t & l & c & a & q & H). destruct (avar_complete p lv k m t l c a q L G K M H) as (F & S & A). exists (vals q). split; [|auto].
  intros key x N E. apply vals_some. rewrite F by exact N. exact E.
Qed.
Lemma loss_case_lrprop : exists q, pz case_real MDP = Some 1%Z /\ lrprop RA 60000 case_real = Ok q /\ pn q DIST = Some 60000.
Proof.
  destruct case_total as (v & V & PH & OR & RP & LO & SC).
  destruct (lrprop_total_area 60000 [] case_real v 1 0 V eq_refl eq_refl eq_refl PH (simple_ground v PH OR) RP) as [q E]; [intros; exact LO | intros; exact SC|].
  cbn [lr_calls] in E. apply bind_inv in E as [q' [E E2]]. apply ok_inj in E2. subst q'. exists q. split; [reflexivity|]. split; [exact E|].
  exact (proj2 (lrprop_area RA _ _ q 1 E eq_refl Z.le_0_1)).
Qed.
