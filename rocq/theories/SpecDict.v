(** Vocabulary for statements about which dictionary entries a call may change or depend on. *)
From Verif Require Export Dict.

Section SpecDict.
Context {A : arith}.

(** [q] differs from [p] at most in the listed entries. *)
Definition same_except (nk : list nkey) (zk : list zkey) (bk : list bkey) (p q : prop A) : Prop :=
  (forall k, ~ In k nk -> pn q k = pn p k) /\
  (forall k, ~ In k zk -> pz q k = pz p k) /\
  (forall k, ~ In k bk -> pb q k = pb p k) /\
  ppfl q = ppfl p.

(** [p] and [q] have the same values in the listed entries. *)
Definition agree_on (nk : list nkey) (zk : list zkey) (bk : list bkey) (p q : prop A) : Prop :=
  (forall k, In k nk -> pn p k = pn q k) /\
  (forall k, In k zk -> pz p k = pz q k) /\
  (forall k, In k bk -> pb p k = pb q k).

(** All entries equal. *)
Definition same_dict (p q : prop A) : Prop := same_except [] [] [] p q.

(** Two runs with the same outcome: the same exception, or results related by [R]. *)
Definition same_outcome {S T : Type} (R : S -> T -> Prop) (m : res S) (n : res T) : Prop :=
  match m, n with
  | Ok a, Ok b => R a b
  | Err e, Err f => e = f
  | _, _ => False
  end.
End SpecDict.
