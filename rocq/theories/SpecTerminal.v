(** Reference formulas for the terminal geometry of area mode (qlra) and the environment (qlrps), over the reals. *)
From Verif Require Export SpecAtten.
Open Scope R_scope.

(** Effective height of an antenna at structural height hg: nothing is gained at a random site (kst <= 0), up to 5 m at a
    carefully chosen one (kst = 1), up to 10 m at a very carefully chosen one. *)
Definition effective_height (kst : Z) (hg dh : R) : R :=
  if (kst <=? 0)%Z then hg
  else hg + (1 + (if (kst =? 1)%Z then 4 else 9) * (if Rlt_dec hg 5 then sin (0.3141593 * hg) else 1))
            * exp (- Rmin 20 (2 * hg / Rmax 0.001 dh)).
(** Smooth-earth horizon distance; horizon distance over terrain of irregularity dh; take-off angle. *)
Definition smooth_horizon (he gme : R) : R := sqrt (2 * he / gme).
Definition rough_horizon (he gme dh : R) : R := smooth_horizon he gme * exp (- 0.07 * sqrt (dh / Rmax he 5)).
Definition takeoff_angle (he gme dh : R) : R :=
  let s := smooth_horizon he gme in (0.65 * dh * (s / rough_horizon he gme dh - 1) - 2 * he) / s.

(** Complex product. *)
Definition cmul (x y : R * R) : R * R := (fst x * fst y - snd x * snd y, fst x * snd y + snd x * fst y).
(** Principal square root: r^2 = x with a non-negative real part, and on the imaginary axis the sign of the imaginary part
    of x. *)
Definition principal_root (x r : R * R) : Prop :=
  cmul r r = x /\ 0 <= fst r /\ (0 <= snd x -> 0 <= snd r) /\ (snd x < 0 -> snd r <= 0).

(** The entries qlra needs, with values v: positive heights and curvature, non-negative irregularity. *)
Definition qlra_entries (p : prop RA) (v : nkey -> R) : Prop :=
  values p [HG0; HG1; DH; GME] v /\ 0 < v HG0 /\ 0 < v HG1 /\ 0 <= v DH /\ 0 < v GME
  /\ (exists l m k, pz p LVAR = Some l /\ pz p MDVARX = Some m /\ pz p KLIMX = Some k).
(** Class of a siting code: 0 random, 1 careful, 2 very careful. *)
Definition siting_class (k : Z) : Z := Z.min (Z.max k 0) 2.
