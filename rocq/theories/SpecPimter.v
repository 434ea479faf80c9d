(** A flight over terrain given as samples with their distances (scripts/pimter.py). *)
From Verif Require Export SpecPathRun SpecTilt.
Open Scope R_scope.

(** v holds what pimter.py works with for a transmitter h metres above ground: 2488 MHz, vertical polarisation, the other antenna at
    2.56 m, the terrain parameters of the path with the spacing of the first two distances, and the derived reference values. *)
Definition flight_values (dist z : list R) (h : R) (v : nkey -> R) : Prop :=
  qlrps RA 2488 0 314 1 15 (5 / 1000)%R = Ok (v WN, v GME, v ENS, (v ZGR, v ZGI)) /\ v HG0 = 2.56 /\ v HG1 = h /\
  (forall q, path_entries q (walked_path dist z) v -> exists r, qlrpfl_geom RA q = Ok r /\ values r [DH; HE0; HE1; DL0; DL1; THE0; THE1] v) /\
  reference_params v true.
(** The height can be computed. *)
Definition flyable (v : nkey -> R) (x : R) : Prop := curve_ok v /\ scatters v x /\ ~ divides_by_zero v x.
