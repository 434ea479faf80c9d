(** A concrete C library, used only to *run* the model ([Validate.v]): 80-bit fixed point, then rounded
    to binary64.  No theorem depends on its accuracy. *)
From Verif Require Export PyFloat.
Open Scope Z_scope.

Definition P : Z := 80.
Definition one : Z := 2 ^ P.
Definition fmul (a b : Z) : Z := Z.shiftr (a * b) P.
Definition fdivz (a b : Z) : Z := Z.shiftl a P / b.

Definition of_fix (n e : Z) : sf := binary_normalize prec emax n (e - P) false.
Definition shl (n k : Z) : Z := if 0 <=? k then Z.shiftl n k else Z.shiftr n (- k).

(** atanh series, |s| <= 1/3. *)
Fixpoint atanh_loop (k : nat) (i pw s2 acc : Z) : Z :=
  match k with
  | O => acc
  | S k => atanh_loop k (i + 2) (fmul pw s2) s2 (acc + pw / i)
  end.
Definition atanh (s : Z) : Z := atanh_loop 26 1 s (fmul s s) 0.
Definition ln2 : Z := Eval vm_compute in 2 * atanh (one / 3).
Fixpoint atan_loop (k : nat) (i pw s2 sg acc : Z) : Z :=
  match k with
  | O => acc
  | S k => atan_loop k (i + 2) (fmul pw s2) s2 (- sg) (acc + sg * (pw / i))
  end.
Definition atan (s : Z) : Z := atan_loop 20 1 s (fmul s s) 1 0.
Definition pi_2 : Z := Eval vm_compute in 8 * atan (one / 5) - 2 * atan (one / 239).

Fixpoint exp_loop (k : nat) (i t r acc : Z) : Z :=
  match k with
  | O => acc
  | S k => exp_loop k (i + 1) (fmul t r / i) r (acc + t)
  end.
(** exp of the fixed-point number x, as (n, e): n/2^P * 2^e. *)
Definition exp_fix (x : Z) : Z * Z :=
  let k := (2 * x + ln2) / (2 * ln2) in
  (exp_loop 22 1 one (x - k * ln2) 0, k).
(** log of m * 2^e. *)
Definition log_pos (m : positive) (e : Z) : Z :=
  let k := Z.log2 (Zpos m) in
  let u := shl (Zpos m) (P - k) in          (* in [1, 2) *)
  2 * atanh (fdivz (u - one) (u + one)) + (e + k) * ln2.
Fixpoint trig_loop (k : nat) (i t x2 sg acc : Z) : Z :=
  match k with
  | O => acc
  | S k => trig_loop k (i + 2) (fmul t x2 / ((i + 1) * (i + 2))) x2 (- sg) (acc + sg * t)
  end.
Definition sin_small (x : Z) : Z := trig_loop 14 1 x (fmul x x) 1 0.
Definition cos_small (x : Z) : Z := trig_loop 14 0 one (fmul x x) 1 0.
(** sin(x + q*pi/2) for a fixed-point x. *)
Definition sin_fix (x q : Z) : Z :=
  let k := (2 * x + pi_2) / (2 * pi_2) in
  let r := x - k * pi_2 in
  match (k + q) mod 4 with
  | 0 => sin_small r | 1 => cos_small r | 2 => - sin_small r | _ => - cos_small r
  end.

Definition fix_of (s : bool) (m : positive) (e : Z) : Z :=
  let v := shl (Zpos m) (e + P) in if s then - v else v.

Definition t_exp (x : sf) : sf :=
  match x with
  | S754_zero _ => sf_Z 1
  | S754_nan => S754_nan
  | S754_infinity s => if s then S754_zero false else x
  | S754_finite s m e =>
      let v := fix_of s m e in
      if v >? 800 * one then S754_infinity false
      else if v <? - 800 * one then S754_zero false
      else let (n, k) := exp_fix v in of_fix n k
  end.
Definition t_log (x : sf) : sf :=
  match x with
  | S754_zero _ => S754_infinity true
  | S754_finite false m e => of_fix (log_pos m e) 0
  | S754_infinity false => x
  | _ => S754_nan
  end.
Definition t_sin (q : Z) (x : sf) : sf :=
  match x with
  | S754_zero _ => if q =? 0 then x else sf_Z 1
  | S754_finite s m e => of_fix (sin_fix (fix_of s m e) q) 0
  | _ => S754_nan
  end.
Definition t_pow (x y : sf) : sf :=
  match x, y with
  | S754_nan, _ | _, S754_nan => S754_nan
  | _, S754_zero _ => sf_Z 1
  | S754_finite s m e, S754_finite sy my ey =>
      let (ny, dy) := scaled sy my ey in
      if (ny mod dy =? 0) && (0 <? ny) && (ny / dy <? 64) then
        let k := ny / dy in
        binary_normalize prec emax ((if s then Zneg m else Zpos m) ^ k) (e * k) false
      else if s then S754_nan
      else
        let v := ny * log_pos m e / dy in
        if v >? 800 * one then S754_infinity false
        else if v <? - 800 * one then S754_zero false
        else let (n, k) := exp_fix v in of_fix n k
  | S754_zero _, S754_finite sy _ _ => if sy then S754_infinity false else S754_zero false
  | _, _ => S754_nan
  end.
Definition t_hypot (x y : sf) : sf :=
  match x, y with
  | S754_infinity _, _ | _, S754_infinity _ => S754_infinity false
  | S754_nan, _ | _, S754_nan => S754_nan
  | S754_zero _, _ => SFabs y
  | _, S754_zero _ => SFabs x
  | S754_finite _ m e, S754_finite _ m' e' =>
      let e0 := Z.min e e' in
      let a := Z.shiftl (Zpos m) (e - e0) in
      let b := Z.shiftl (Zpos m') (e' - e0) in
      let n := Z.shiftl (a * a + b * b) 20 in
      let r := Z.sqrt n in
      let st := if r * r =? n then 0 else 1 in
      binary_normalize prec emax (2 * r + st) (e0 - 11) false
  end.

Definition test_libm : libm := Libm t_exp t_log (t_sin 0) (t_sin 1) t_pow t_hypot.
Definition TA : arith := PyA test_libm.

(** Decimal rendering of a result: x * 10^k rounded. *)
Definition dec (k : Z) (x : pynum) : Z :=
  match x with
  | PI z => z * 10 ^ k
  | PF (S754_finite s m e) | PN (S754_finite s m e) =>
      let (n, d) := scaled s m e in div_half_even (n * 10 ^ k) d
  | _ => 0
  end.
