(** CPython / numpy numbers: the instance [PyA] of the arithmetic.

    A number is an int, a Python float or a numpy float64; floats are IEEE binary64 from the standard
    library's executable specification (Coq.Floats.SpecFloat, no primitive floats).  The C library
    (exp, log, sin, cos, pow, hypot) is a parameter: theorems about [PyA L] hold for every [L].
    Simplifications: ints are converted to float by rounding also where CPython would raise
    OverflowError (|n| >= 2^1024); int/int division rounds the operands first (exact for |n| <= 2^53);
    int-float comparison rounds the int first; numpy warnings are not modelled. *)
From Coq Require Export Floats.SpecFloat.
From Verif Require Export Arith.

Definition sf := spec_float.
Definition prec : Z := 53.
Definition emax : Z := 1024.
Definition sf_Z (z : Z) : sf := binary_normalize prec emax z 0 false.
Definition sf_add := SFadd prec emax.
Definition sf_sub := SFsub prec emax.
Definition sf_mul := SFmul prec emax.
Definition sf_div := SFdiv prec emax.
Definition sf_sqrt := SFsqrt prec emax.
Definition sf_is0 (x : sf) : bool := match x with S754_zero _ => true | _ => false end.
Definition sf_isnan (x : sf) : bool := match x with S754_nan => true | _ => false end.
Definition sf_isinf (x : sf) : bool := match x with S754_infinity _ => true | _ => false end.
Definition sf_finite (x : sf) : bool := negb (sf_isnan x || sf_isinf x).
Definition sf_neg (x : sf) : bool := SFltb x (S754_zero false).

(** The C library. *)
Record libm : Type := Libm {
  lm_exp : sf -> sf; lm_log : sf -> sf; lm_sin : sf -> sf; lm_cos : sf -> sf;
  lm_pow : sf -> sf -> sf; lm_hypot : sf -> sf -> sf }.

Inductive pynum : Set :=
  | PI (z : Z)         (* int *)
  | PF (x : sf)        (* float *)
  | PN (x : sf).       (* numpy.float64 *)

Definition to_sf (x : pynum) : sf := match x with PI z => sf_Z z | PF f | PN f => f end.
Definition is_np (x : pynum) : bool := match x with PN _ => true | _ => false end.
Definition tag2 (x y : pynum) (f : sf) : pynum := if is_np x || is_np y then PN f else PF f.
Definition tag1 (x : pynum) (f : sf) : pynum := if is_np x then PN f else PF f.

Definition py_bin (fz : Z -> Z -> Z) (ff : sf -> sf -> sf) (x y : pynum) : pynum :=
  match x, y with
  | PI a, PI b => PI (fz a b)
  | _, _ => tag2 x y (ff (to_sf x) (to_sf y))
  end.
Definition py_div (x y : pynum) : res pynum :=
  if negb (is_np x || is_np y) && sf_is0 (to_sf y) then Err ZeroDivisionError
  else Ok (tag2 x y (sf_div (to_sf x) (to_sf y))).
Definition py_opp (x : pynum) : pynum :=
  match x with PI z => PI (- z) | PF f => PF (SFopp f) | PN f => PN (SFopp f) end.
Definition py_abs (x : pynum) : pynum :=
  match x with PI z => PI (Z.abs z) | PF f => PF (SFabs f) | PN f => PN (SFabs f) end.
Definition py_cmp (fz : Z -> Z -> bool) (ff : sf -> sf -> bool) (x y : pynum) : bool :=
  match x, y with
  | PI a, PI b => fz a b
  | _, _ => ff (to_sf x) (to_sf y)
  end.

(** Integer part of a finite float: toward zero / toward minus infinity / nearest-even. *)
Definition scaled (s : bool) (m : positive) (e : Z) : Z * Z :=   (* value = n / d, d > 0 *)
  let n := if s then Zneg m else Zpos m in
  if (0 <=? e)%Z then (n * 2 ^ e, 1)%Z else (n, 2 ^ (- e))%Z.
Definition div_half_even (n d : Z) : Z :=
  let q := (n / d)%Z in
  let r := (n - q * d)%Z in
  match (2 * r ?= d)%Z with
  | Lt => q
  | Gt => (q + 1)%Z
  | Eq => if Z.even q then q else (q + 1)%Z
  end.
Definition sf_int (f : Z -> Z -> Z) (x : sf) : res Z :=
  match x with
  | S754_zero _ => Ok 0%Z
  | S754_finite s m e => let (n, d) := scaled s m e in Ok (f n d)
  | S754_infinity _ => Err OverflowError
  | S754_nan => Err ValueError
  end.
Definition py_int (f : Z -> Z -> Z) (x : pynum) : res Z :=
  match x with PI z => Ok z | PF a | PN a => sf_int f a end.

(** Integral (or non-finite) exponent: a negative base then stays real. *)
Definition py_isint (y : pynum) : bool :=
  match y with
  | PI _ => true
  | PF (S754_finite s m e) | PN (S754_finite s m e) =>
      let (n, d) := scaled s m e in (n mod d =? 0)%Z
  | _ => true
  end.

(** round(x, k), k >= 0: correctly rounded decimal (CPython's float.__round__). *)
Definition py_round (x : pynum) (k : Z) : res pynum :=
  match x with
  | PI z => Ok (PI z)
  | PF (S754_finite s m e) | PN (S754_finite s m e) =>
      let (n, d) := scaled s m e in
      let r := div_half_even (n * 10 ^ k) d in
      let v := if (r =? 0)%Z then S754_zero s else sf_div (sf_Z r) (sf_Z (10 ^ k)) in
      Ok (tag1 x v)
  | _ => Ok x
  end.

Section Inst.
Context (L : libm).

Definition py_sqrt (x : pynum) : res pynum :=
  if sf_neg (to_sf x) then Err ValueError else Ok (PF (sf_sqrt (to_sf x))).
(** math.<f>: OverflowError when a finite argument gives an infinity. *)
Definition py_exp (x : pynum) : res pynum :=
  let r := lm_exp L (to_sf x) in
  if sf_isinf r && sf_finite (to_sf x) then Err OverflowError else Ok (PF r).
Definition py_trig (f : sf -> sf) (x : pynum) : res pynum :=
  if sf_isinf (to_sf x) then Err ValueError else Ok (PF (f (to_sf x))).
Definition py_powf (x y : pynum) : res pynum :=
  if is_np x || is_np y then Ok (PN (lm_pow L (to_sf x) (to_sf y)))
  else if sf_is0 (to_sf x) && sf_neg (to_sf y) then Err ZeroDivisionError
  else if sf_neg (to_sf x) && negb (py_isint y)
       then Err NotReal
  else
    let r := lm_pow L (to_sf x) (to_sf y) in
    if sf_isinf r && sf_finite (to_sf x) && sf_finite (to_sf y) then Err OverflowError else Ok (PF r).
Definition py_powZ (x : pynum) (k : Z) : res pynum :=
  match x with
  | PI z => if (0 <=? k)%Z then Ok (PI (z ^ k)) else py_powf x (PI k)
  | _ => py_powf x (PI k)
  end.
Definition py_hypot (x y : pynum) : res pynum :=
  let r := lm_hypot L (to_sf x) (to_sf y) in
  if negb (is_np x || is_np y) && sf_isinf r && sf_finite (to_sf x) && sf_finite (to_sf y)
  then Err OverflowError else Ok (tag2 x y r).
(** cmath.sqrt for arguments that are not both subnormal (CPython Modules/cmathmodule.c).  np.sqrt of a
    complex uses an algebraically equal formula that may differ in the last bit. *)
Definition copysign (x y : sf) : sf :=
  let s := match y with S754_zero s | S754_infinity s | S754_finite s _ _ => s | S754_nan => false end in
  if s then SFopp (SFabs x) else SFabs x.
Definition py_csqrt (x y : pynum) : res (pynum * pynum) :=
  let re := to_sf x in
  let im := to_sf y in
  if sf_is0 re && sf_is0 im then Ok (PF (S754_zero false), PF im)
  else
    let eight := sf_Z 8 in
    let two := sf_Z 2 in
    let ax := sf_div (SFabs re) eight in
    let ay := SFabs im in
    let s := sf_mul two (sf_sqrt (sf_add ax (lm_hypot L ax (sf_div ay eight)))) in
    let d := sf_div ay (sf_mul two s) in
    if SFleb (S754_zero false) re then Ok (PF s, PF (copysign d im))
    else Ok (PF d, PF (copysign s im)).

Definition PyA : arith := {|
  num := pynum;
  n_Z := PI;
  n_lit := fun n d => PF (sf_div (sf_Z n) (sf_Z (Zpos d)));
  n_add := py_bin Z.add sf_add;
  n_sub := py_bin Z.sub sf_sub;
  n_mul := py_bin Z.mul sf_mul;
  n_opp := py_opp;
  n_abs := py_abs;
  n_div := py_div;
  n_ltb := py_cmp Z.ltb SFltb;
  n_leb := py_cmp Z.leb SFleb;
  n_eqb := py_cmp Z.eqb SFeqb;
  n_trunc := py_int Z.quot;
  n_floor := py_int Z.div;
  m_sqrt := py_sqrt;
  m_exp := py_exp;
  m_sin := py_trig (lm_sin L);
  m_cos := py_trig (lm_cos L);
  np_log := fun x => Ok (PN (lm_log L (to_sf x)));
  np_sqrt := fun x => Ok (PN (sf_sqrt (to_sf x)));
  n_powZ := py_powZ;
  n_pow := py_powf;
  n_hypot := py_hypot;
  n_csqrt := py_csqrt;
  n_round := py_round;
  n_rint := py_int div_half_even
|}.
End Inst.
