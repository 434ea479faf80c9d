(** A distance that is not a number. *)
From Coq Require Import Lia.
From Verif Require Import SpecSafe PyFloat Cases.
Open Scope Z_scope.

Definition nan : num TA := PF S754_nan.
Definition is_key_error {T} (m : res T) : bool := match m with Err KeyError => true | _ => false end.
Definition run (p : prop TA) := let! q := qlra TA 2 2 p in let! r := lrprop TA (L 30000 1) q in avar TA (PI 0) (PI 0) (PI 0) r.
Lemma nan_area : present area_caller control_caller case_area /\ statistics_requested case_area.
Proof.
  split.
  - split; intros k Hk; repeat (destruct Hk as [<- | Hk]; [cbv; discriminate|]); destruct Hk.
  - left. exists 3, 5. split; [reflexivity|]. split; [lia|]. split; [reflexivity | lia].
Qed.
Lemma pick (m : res (prop TA)) (f : prop TA -> res (prop TA)) :
  (match m with Ok q => is_key_error (f q) | Err _ => false end) = true -> exists q, m = Ok q /\ f q = Err KeyError.
Proof. destruct m as [q|]; [|discriminate]. intros H. exists q. split; [reflexivity|]. destruct (f q) as [|[]]; try discriminate. reflexivity. Qed.
Lemma nan_run : exists q, qlra TA 2 2 case_area = Ok q /\ lrprop TA nan q = Err KeyError.
Proof. apply pick. vm_compute. reflexivity. Qed.
Lemma nan_distance : exists (p q : prop TA) d, present area_caller control_caller p /\ statistics_requested p /\
  qlra TA 2 2 p = Ok q /\ lrprop TA d q = Err KeyError.
Proof. destruct nan_run as (q & H1 & H2). exists case_area, q, nan. destruct nan_area. auto. Qed.
