(** Concrete dictionaries used to show that the hypotheses of the theorems are met: the paths of
    tests/test_p2p.py and tests/test_area.py (binary64 arithmetic), and small real-number dictionaries. *)
From Verif Require Export Scripts TestLibm Validate.

Definition is_ok {T} (r : res T) : bool := match r with Ok _ => true | Err _ => false end.
(** Apply a test to the result of a run. *)
Definition on_ok {T} (r : res T) (f : T -> bool) : bool := match r with Ok x => f x | Err _ => false end.
Definition has_n {A} (p : prop A) (k : nkey) (f : num A -> bool) : bool :=
  match pn p k with Some x => f x | None => false end.
Definition has_z {A} (p : prop A) (k : zkey) (v : Z) : bool :=
  match pz p k with Some x => (x =? v)%Z | None => false end.
Definition has_b {A} (p : prop A) (k : bkey) (v : bool) : bool :=
  match pb p k with Some x => Bool.eqb x v | None => false end.

Fixpoint setns {A} (l : list (nkey * num A)) (p : prop A) : prop A :=
  match l with [] => p | (k, v) :: l => setns l (setn p k v) end.
Fixpoint setzs {A} (l : list (zkey * Z)) (p : prop A) : prop A :=
  match l with [] => p | (k, v) :: l => setzs l (setz p k v) end.

(** The dictionary p2p.py hands to qlrpfl for the Crystal Palace - Mursley path. *)
Definition case_p2p : prop TA :=
  setpfl (setzs [(LVAR, 5); (KLIM, 5); (KWX, 0); (KLIMX, 0); (MDVARX, 11)]%Z
    (setns [(HG0, L 1439 10); (HG1, L 85 10); (WN, L 870020964 1000000000); (ENS, PI 314);
            (GME, L 114800 1000000000000); (ZGR, L 3794 1000); (ZGI, L 285 1000)] (empty_prop TA)))
    setup_pfl1.
(** The same with the terminals 12 km apart over flat ground: a line-of-sight path. *)
Definition flat_pfl : profile TA := @Profile TA 24 (PI 500) (map (fun _ => PI 10) (seq 0 25)).
Definition case_los : prop TA := setpfl case_p2p flat_pfl.
(** The dictionary of an area-mode run (test_area.py) before qlra. *)
Definition case_area : prop TA :=
  setzs [(LVAR, 0); (KWX, 0); (KLIMX, 5); (MDVARX, 3)]%Z
    (setns [(HG0, L 33 10); (HG1, L 13 10); (WN, L 419287 1000000); (ENS, PI 301); (DH, PI 102);
            (GME, L 117700 1000000000000); (ZGR, L 2415 10000); (ZGI, L (-144) 1000)] (empty_prop TA)).
(** The same terrain stretched to four times the length: a trans-horizon path. *)
Definition case_far : prop TA :=
  setpfl case_p2p (@Profile TA (pf_np setup_pfl1) (@n_mul TA (PI 4) (pf_xi setup_pfl1)) (pf_z setup_pfl1)).
