(** A straight path between two points of a map. *)
From Coq Require Export Reals List.
Export ListNotations.
Open Scope R_scope.
(** The point at fraction u of the way from a to b. *)
Definition on_way (a b : R * R) (u : R) : R * R := (fst a + u * (fst b - fst a), snd a + u * (snd b - snd a)).
(** k-th of n equal steps. *)
Definition part (k n : nat) : R := INR k / INR n.
