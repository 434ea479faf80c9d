(** Further runs over the exact reals. *)
From Interval Require Import Tactic.
From Verif Require Import Frame SpecRegime Scripts PfRealRun.
Open Scope R_scope.
Definition realns (l : list (nkey * R)) : prop RA :=
  fold_left (fun (p : prop RA) (kv : nkey * R) => setn p (fst kv) (snd kv)) l (empty_prop RA).
(** A dictionary on which adiff has been initialised. *)
Definition case_diff : prop RA := realns
  [(THA, -3 / 1000); (GME, 1177 / 10000000000); (DLA, 21000); (WN, 2); (DL0, 8000); (DL1, 13000); (QK, 35 / 10); (XHT, 30);
   (AHT, -50); (WD1, 1); (XD1, -4000); (DH, 50); (AFO, 1 / 10)].
Lemma case_diff_runs : exists a p', adiff RA 60000 case_diff = Ok (a, p').
Proof.
  cut (runs (adiff RA 60000 case_diff) (fun _ => True)).
  { intros [[a p'] [E _]]. exists a, p'. exact E. }
  unfold case_diff, realns. cbn [fold_left fst snd]. rgo. exact Logic.I.
Qed.
Definition case_los_real : prop RA := realns
  [(DH, 50); (HE0, 5); (HE1, 12); (ZGR, 2415 / 10000); (ZGI, -144 / 1000); (WN, 2); (EMD, 2 / 10000); (AED, 10); (WIS, 8 / 10)].
Lemma case_los_real_runs : exists a, alos RA 5000 case_los_real = Ok a.
Proof.
  cut (runs (alos RA 5000 case_los_real) (fun _ => True)).
  { intros [a [E _]]. exists a. exact E. }
  unfold case_los_real, realns. cbn [fold_left fst snd]. rgo. exact Logic.I.
Qed.
