(** How far avar can move a prediction away from the reference attenuation. *)
From Verif Require Export SpecStats.
Open Scope R_scope.

(** Per climate (1 equatorial, 2 continental subtropical, 3 maritime subtropical, 4 desert, 5 continental temperate, 6 maritime
    temperate over land, 7 over sea): by how much the median can lie below and above the reference attenuation, and the
    largest standard deviation in time (dB). *)
Definition median_below (k : Z) : R := match k with 1%Z => 2 | 2%Z => 4.3 | 3%Z => 6.3 | 4%Z => 0 | 5%Z => 4.3 | 6%Z => 2.1 | _ => 7.1 end.
Definition median_above (k : Z) : R := match k with 1%Z => 9.67 | 2%Z => 0.62 | 3%Z => 0 | 4%Z => 9.21 | 5%Z => 0.62 | 6%Z => 0.39 | _ => 0 end.
Definition time_spread (k : Z) : R := match k with 1%Z => 8 | 2%Z => 16 | 3%Z => 18.8 | 4%Z => 13.2 | 5%Z => 14.3 | 6%Z => 15 | _ => 17.8 end.
(** The largest standard deviation over locations (dB): none for a point-to-point link. *)
Definition location_spread (point : bool) : R := if point then 0 else 10.
(** What deviates of at most z add to or take from the median, for standard deviations of at most s in time, g over
    locations and 8 dB over situations. *)
Definition spread (s g z : R) : R := z * (s + g) + z * sqrt (64 + (s * z) ^ 2 / 7.8 + (g * z) ^ 2 / 24).
(** Path length, terrain irregularity and wave number as documented. *)
Definition path_inputs (p : prop RA) : Prop := exists v, values p [DIST; DH; WN] v /\ 0 <= v DIST /\ 0 <= v DH /\ 0 < v WN.
(** Every deviate at most z. *)
Definition deviates_within (z t l c : R) : Prop := - z <= t <= z /\ - z <= l <= z /\ - z <= c <= z.
(** The statistics of climate k, location variability off or on. *)
Definition stats_within (k : Z) (point : bool) (v : nkey -> R) : Prop :=
  - median_above k <= v VMD <= median_below k /\ (forall z, 0 <= time_dev v z <= time_spread k) /\
  0 <= v SGL <= location_spread point /\ 0 <= v VS0 <= 64.
