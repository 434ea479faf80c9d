(** Entries of the dictionary that describe how other entries were obtained. *)
From Verif Require Export SpecDict SpecPimter.

(** frequency, surface refractivity at sea level, permittivity, conductivity, earth curvature, path length in km; polarisation. *)
Definition settings_n : list nkey := [FMHZ; ENS0; EPS; SGM; GMA; DKM].
Definition settings_z : list zkey := [IPOL].
(** The dictionaries agree except, possibly, in the settings. *)
Definition but_settings {A} (p q : prop A) : Prop :=
  (forall k, ~ In k settings_n -> pn p k = pn q k) /\ (forall k, ~ In k settings_z -> pz p k = pz q k) /\ (forall k, pb p k = pb q k) /\ ppfl p = ppfl q.
(** q' has the settings of q. *)
Definition settings_kept {A} (q q' : prop A) : Prop := (forall k, In k settings_n -> pn q' k = pn q k) /\ (forall k, In k settings_z -> pz q' k = pz q k).
(** The last element can be divided by 1000. *)
Definition numeric_last {A} (d : list (num A)) : Prop := exists u, nth_error d (length d - 1) = Some u /\ exists x, n_div u (n_Z 1000) = Ok x.
