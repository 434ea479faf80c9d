(** Common definitions: Python exceptions as values, the error monad, Python list indexing.
    No proofs here except trivial characterisations of the monad. *)
From Coq Require Export ZArith List Bool.
Export ListNotations.
Open Scope Z_scope.

(** Exceptions the modelled code can raise.  [NotReal] is not a Python exception: it marks the points
    where the Python program would continue with a complex number (negative base to a fractional power)
    and, in the exact-real instance only, the points where IEEE arithmetic would continue with an
    infinity or a NaN (e.g. np.log of a non-positive number). *)
Inductive exn : Set :=
  | ZeroDivisionError | ValueError | OverflowError | IndexError | KeyError | TypeError
  | UnboundLocalError | NotReal.

Inductive res (A : Type) : Type :=
  | Ok (a : A)
  | Err (e : exn).
Arguments Ok {A} a.
Arguments Err {A} e.

Definition bind {A B : Type} (m : res A) (k : A -> res B) : res B :=
  match m with Ok a => k a | Err e => Err e end.

Notation "'let!' x := m 'in' k" := (bind m (fun x => k))
  (at level 200, x pattern, m at level 100, k at level 200, right associativity,
   format "'[v' 'let!'  x  :=  m  'in' '/' k ']'").

Definition opt_res {A : Type} (e : exn) (o : option A) : res A :=
  match o with Some a => Ok a | None => Err e end.

(** Python list indexing [l[i]]: negative indices count from the end, anything else out of range is an
    IndexError. *)
Definition pyget {A : Type} (l : list A) (i : Z) : res A :=
  let n := Z.of_nat (length l) in
  let j := if i <? 0 then i + n else i in
  if (j <? 0) || (n <=? j) then Err IndexError
  else opt_res IndexError (nth_error l (Z.to_nat j)).

(** Left-to-right monadic map ([for x in l: out.append(f(x))]). *)
Fixpoint mapM {A B : Type} (f : A -> res B) (l : list A) : res (list B) :=
  match l with
  | [] => Ok []
  | x :: l' => let! y := f x in let! ys := mapM f l' in Ok (y :: ys)
  end.

(** Left-to-right monadic fold ([for x in l: s = f(s, x)]). *)
Fixpoint foldM {A S : Type} (f : S -> A -> res S) (l : list A) (s : S) : res S :=
  match l with
  | [] => Ok s
  | x :: l' => let! s' := f s x in foldM f l' s'
  end.
