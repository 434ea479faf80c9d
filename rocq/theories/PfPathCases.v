(** p2p.py between two masts of 300 m, 1 km apart, each behind a hill of 301 m: concrete runs. *)
From Verif Require Import RInst SpecPathRun PfPathRun3 Scripts PyFloat Cases Arith.
Open Scope R_scope.

Definition behind_hills : list (num TA) := map PI [0; 301; 0; 0; 0; 0; 0; 0; 0; 301; 0]%Z.
Definition masts (f : Z) : prop TA := setz (@setns TA [(FMHZ, PI f); (DKM, PI 1); (HG0, PI 300); (HG1, PI 300)] (empty_prop TA)) IPOL 1.
Definition nan_row (r : num TA * num TA * num TA * num TA) : bool := match r with (_, _, _, PN S754_nan) => true | _ => false end.
Lemma masts_run : on_ok (itmlogic_p2p TA behind_hills (masts 20)) (fun o => forallb nan_row (out_rows TA o) && (length (out_rows TA o) =? 15)%nat)%bool = true.
Proof. vm_compute. reflexivity. Qed.
Lemma masts_nan : exists o, itmlogic_p2p TA behind_hills (masts 20) = Ok o /\ length (out_rows TA o) = 15%nat /\ forall d r c a, In (d, r, c, a) (out_rows TA o) -> a = PN S754_nan.
Proof.
  assert (H := masts_run). unfold on_ok in H. destruct (itmlogic_p2p TA behind_hills (masts 20)) as [o|e]; [|discriminate]. exists o. split; [reflexivity|].
  apply andb_prop in H as [H N]. apply Nat.eqb_eq in N. split; [exact N|]. intros d r c a I. rewrite forallb_forall in H. specialize (H _ I). cbn in H. destruct a as [| |[]]; try discriminate H. reflexivity.
Qed.
Lemma masts_refuted : exists (z : list (num TA)) (p : prop TA) o,
  pn p FMHZ = Some (PI 20) /\ pn p DKM = Some (PI 1) /\ itmlogic_p2p TA z p = Ok o /\ length (out_rows TA o) = 15%nat /\
  forall d r c a, In (d, r, c, a) (out_rows TA o) -> a = PN S754_nan.
Proof. destruct masts_nan as (o & H). exists behind_hills, (masts 20), o. split; [reflexivity|]. split; [reflexivity | exact H]. Qed.

(** A request over the reals. *)
Definition path_call (f d h0 h1 : R) (pol : Z) : prop RA := setz (@setns RA [(FMHZ, f : num RA); (DKM, d : num RA); (HG0, h0 : num RA); (HG1, h1 : num RA)] (empty_prop RA)) IPOL pol.
Lemma path_call_request f d h0 h1 pol z : 0 < f -> 0 < d -> 0 < h0 -> 0 < h1 -> (2 <= length z)%nat -> path_request (path_call f d h0 h1 pol) z d f h0 h1 pol.
Proof. intros. repeat split; assumption || reflexivity. Qed.
Lemma path_any (p : prop RA) z d f h0 h1 ipol : path_request p z d f h0 h1 ipol -> d <= 200 ->
  (exists out, itmlogic_p2p RA z p = Ok out /\ length (out_rows RA out) = 15%nat) \/ itmlogic_p2p RA z p = Err ZeroDivisionError \/ itmlogic_p2p RA z p = Err NotReal.
Proof.
  intros A L. destruct (path_exact p z d f h0 h1 ipol A) as (v & _ & S & _ & N & Z & O). specialize (S L).
  destruct (Classical_Prop.classic (curve_ok v)) as [C|C]; [|right; right; exact (N C)].
  destruct (Classical_Prop.classic (divides_by_zero v (1000 * d))) as [D|D]; [right; left; exact (Z C S D)|]. left. destruct (O C S D) as (out & E & _ & M). exists out. split; [exact E|].
  rewrite <- (map_length fst), M. reflexivity.
Qed.
