(** Exact real arithmetic: the instance [RA].

    Operations without a value over the reals are errors: x/0 and 0**negative are ZeroDivisionError,
    math.sqrt of a negative number is ValueError (as in Python); np.log of a non-positive number, np.sqrt of
    a negative number and a negative base to a non-integer power are [NotReal] (Python would continue with
    -inf, nan or a complex number). *)
From Coq Require Export Reals Lra Lia.
From Verif Require Export Arith.
Open Scope R_scope.

(** Largest integer <= x (stdlib's Int_part). *)
Definition rfloor (x : R) : Z := Int_part x.
Definition rtrunc (x : R) : Z := if Rlt_dec x 0 then (- rfloor (- x))%Z else rfloor x.
(** Nearest integer, ties to even. *)
Definition rrint (x : R) : Z :=
  let f := rfloor x in
  let r := x - IZR f in
  if Rlt_dec r (1 / 2) then f
  else if Rlt_dec (1 / 2) r then (f + 1)%Z
  else if Z.even f then f else (f + 1)%Z.

Definition r_ltb (x y : R) : bool := if Rlt_dec x y then true else false.
Definition r_leb (x y : R) : bool := if Rle_dec x y then true else false.
Definition r_eqb (x y : R) : bool := if Req_EM_T x y then true else false.
Definition r_div (x y : R) : res R := if Req_EM_T y 0 then Err ZeroDivisionError else Ok (x / y).
Definition r_sqrt (e : exn) (x : R) : res R := if Rlt_dec x 0 then Err e else Ok (sqrt x).
Definition r_log (x : R) : res R := if Rle_dec x 0 then Err NotReal else Ok (ln x).
Definition r_powZ (x : R) (k : Z) : res R :=
  if (0 <=? k)%Z then Ok (x ^ Z.to_nat k)
  else if Req_EM_T x 0 then Err ZeroDivisionError else Ok (/ (x ^ Z.to_nat (- k))).
Definition r_pow (x y : R) : res R :=
  if Rlt_dec 0 x then Ok (Rpower x y)
  else if Req_EM_T x 0 then
    if Rlt_dec y 0 then Err ZeroDivisionError else if Req_EM_T y 0 then Ok 1 else Ok 0
  else Err NotReal.
(** Principal square root of x + iy. *)
Definition r_csqrt (x y : R) : res (R * R) :=
  let m := sqrt (x * x + y * y) in
  let im := sqrt ((m - x) / 2) in
  Ok (sqrt ((m + x) / 2), if Rlt_dec y 0 then - im else im).
Definition r_round (x : R) (k : Z) : res R :=
  let s := IZR (10 ^ k) in Ok (IZR (rrint (x * s)) / s).

Definition RA : arith := {|
  num := R;
  n_Z := IZR;
  n_lit := fun n d => IZR n / IZR (Zpos d);
  n_add := Rplus;
  n_sub := Rminus;
  n_mul := Rmult;
  n_opp := Ropp;
  n_abs := Rabs;
  n_div := r_div;
  n_ltb := r_ltb;
  n_leb := r_leb;
  n_eqb := r_eqb;
  n_trunc := fun x => Ok (rtrunc x);
  n_floor := fun x => Ok (rfloor x);
  m_sqrt := r_sqrt ValueError;
  m_exp := fun x => Ok (exp x);
  m_sin := fun x => Ok (sin x);
  m_cos := fun x => Ok (cos x);
  np_log := r_log;
  np_sqrt := r_sqrt NotReal;
  n_powZ := r_powZ;
  n_pow := r_pow;
  n_hypot := fun x y => Ok (sqrt (x * x + y * y));
  n_csqrt := r_csqrt;
  n_round := r_round;
  n_rint := fun x => Ok (rrint x)
|}.
