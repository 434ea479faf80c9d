(** The standard normal distribution (independent of the code). *)
From Coq Require Import Reals.
From Coquelicot Require Import Coquelicot.
Open Scope R_scope.

(** The standard normal density. *)
Definition normal_density (t : R) : R := exp (- (t ^ 2) / 2) / sqrt (2 * PI).

(** [normal_tail z q]: q is the integral of the density from z to infinity, the standard normal complementary
    probability of z. *)
Definition normal_tail (z q : R) : Prop := is_lim (fun b => RInt normal_density z b) p_infty q.
