(** The arithmetic the model is parametric in.

    Python's operators are modelled by the fields of [arith]; the model functions are written once for an
    arbitrary [arith].  Instances: exact reals ([RInst.v]) and CPython/numpy binary64 ([PyFloat.v]). *)
From Verif Require Export Base.

Record arith : Type := Arith {
  num : Type;
  n_Z : Z -> num;                      (* int values and int literals *)
  n_lit : Z -> positive -> num;        (* float literal n/d, e.g. 0.25 is n_lit 25 100 *)
  n_add : num -> num -> num;
  n_sub : num -> num -> num;
  n_mul : num -> num -> num;
  n_opp : num -> num;
  n_abs : num -> num;
  n_div : num -> num -> res num;       (* x / y *)
  n_ltb : num -> num -> bool;          (* x < y, false on NaN *)
  n_leb : num -> num -> bool;          (* x <= y, false on NaN *)
  n_eqb : num -> num -> bool;          (* x == y *)
  n_trunc : num -> res Z;              (* int(x) *)
  n_floor : num -> res Z;              (* int(np.floor(x)), math.floor(x) *)
  m_sqrt : num -> res num;             (* math.sqrt *)
  m_exp : num -> res num;              (* math.exp *)
  m_sin : num -> res num;              (* math.sin *)
  m_cos : num -> res num;              (* math.cos *)
  np_log : num -> res num;             (* np.log *)
  np_sqrt : num -> res num;            (* np.sqrt on a real argument *)
  n_powZ : num -> Z -> res num;        (* x ** k, k an int literal *)
  n_pow : num -> num -> res num;       (* x ** y, y a float *)
  n_hypot : num -> num -> res num;     (* abs(complex(x, y)) *)
  n_csqrt : num -> num -> res (num * num);  (* cmath.sqrt / np.sqrt of complex(x, y) *)
  n_round : num -> Z -> res num;       (* round(x, k) *)
  n_rint : num -> res Z                (* round(x) to an int, half to even *)
}.

Arguments n_Z {a} z.
Arguments n_lit {a} n d.
Arguments n_add {a} x y.
Arguments n_sub {a} x y.
Arguments n_mul {a} x y.
Arguments n_opp {a} x.
Arguments n_abs {a} x.
Arguments n_div {a} x y.
Arguments n_ltb {a} x y.
Arguments n_leb {a} x y.
Arguments n_eqb {a} x y.
Arguments n_trunc {a} x.
Arguments n_floor {a} x.
Arguments m_sqrt {a} x.
Arguments m_exp {a} x.
Arguments m_sin {a} x.
Arguments m_cos {a} x.
Arguments np_log {a} x.
Arguments np_sqrt {a} x.
Arguments n_powZ {a} x k.
Arguments n_pow {a} x y.
Arguments n_hypot {a} x y.
Arguments n_csqrt {a} x y.
Arguments n_round {a} x k.
Arguments n_rint {a} x.

Declare Scope num_scope.
Delimit Scope num_scope with num.
Bind Scope num_scope with num.

Infix "+" := n_add : num_scope.
Infix "-" := n_sub : num_scope.
Infix "*" := n_mul : num_scope.
Notation "- x" := (n_opp x) : num_scope.
Infix "/?" := n_div (at level 40, left associativity) : num_scope.
Infix "<?" := n_ltb : num_scope.
Infix "<=?" := n_leb : num_scope.
Notation "x >? y" := (n_ltb y x) (only parsing) : num_scope.
Notation "x >=? y" := (n_leb y x) (only parsing) : num_scope.
Infix "=?" := n_eqb : num_scope.
Notation "# z" := (n_Z z%Z) (at level 1, format "# z") : num_scope.
Notation "n // d" := (n_lit n%Z d%positive) (at level 1, no associativity) : num_scope.

Section Derived.
Context {A : arith}.
Local Open Scope num_scope.

(** Python's [max(a, b)]: [b] only if [b > a]; so [max(nan, b)] is [nan]. *)
Definition pymax (a b : num A) : num A := if a <? b then b else a.
(** Python's [min(a, b)]: [b] only if [b < a]. *)
Definition pymin (a b : num A) : num A := if b <? a then b else a.

(** Complex numbers as pairs.  CPython's arithmetic on them (Objects/complexobject.c), which numpy's
    scalar complex arithmetic follows as well. *)
Definition cplx : Type := (num A * num A)%type.
Definition c_add (x y : cplx) : cplx := (fst x + fst y, snd x + snd y).
Definition c_sub (x y : cplx) : cplx := (fst x - fst y, snd x - snd y).
Definition c_mul (x y : cplx) : cplx :=
  (fst x * fst y - snd x * snd y, fst x * snd y + snd x * fst y).
(** Smith's algorithm, as in CPython's [_Py_c_quot]. *)
Definition c_div (x y : cplx) : res cplx :=
  let (ar, ai) := x in
  let (br, bi) := y in
  if n_abs bi <=? n_abs br then
    if n_abs br =? #0 then Err ZeroDivisionError
    else
      let! ratio := bi /? br in
      let denom := br + bi * ratio in
      let! re := (ar + ai * ratio) /? denom in
      let! im := (ai - ar * ratio) /? denom in
      Ok (re, im)
  else
    let! ratio := br /? bi in
    let denom := br * ratio + bi in
    let! re := (ar * ratio + ai) /? denom in
    let! im := (ai * ratio - ar) /? denom in
    Ok (re, im).
Definition c_abs (x : cplx) : res (num A) := n_hypot (fst x) (snd x).
Definition c_real (x : num A) : cplx := (x, #0).

End Derived.
Arguments cplx : clear implicits.
