(** Exchanging the two terminals. *)
From Verif Require Export RInst Dict.
Open Scope R_scope.

(** The entry of the other terminal. *)
Definition other (k : nkey) : nkey :=
  match k with
  | HG0 => HG1 | HG1 => HG0 | HE0 => HE1 | HE1 => HE0 | DL0 => DL1 | DL1 => DL0
  | THE0 => THE1 | THE1 => THE0 | DLS0 => DLS1 | DLS1 => DLS0 | _ => k
  end.
(** q is p with the terminals exchanged, apart from the scratch entry rr and the error indicator kwx. *)
Definition exchanged {A} (p q : prop A) : Prop :=
  (forall k, k <> RR -> pn q k = pn p (other k)) /\ (forall k, k <> KWX -> pz q k = pz p k) /\ (forall k, pb q k = pb p k) /\
  ((exists k, pz p KWX = Some k) <-> (exists k, pz q KWX = Some k)).
(** No horizon more than three times as far as the smooth-earth horizon of either terminal. *)
Definition short_horizons (p : prop RA) : Prop :=
  exists he0 he1 dl0 dl1 gme : R, pn p HE0 = Some he0 /\ pn p HE1 = Some he1 /\ pn p DL0 = Some dl0 /\ pn p DL1 = Some dl1 /\ pn p GME = Some gme /\
    forall he dl, In he [he0; he1] -> In dl [dl0; dl1] -> dl <= 3 * sqrt (2 * he / gme).
(** Both effective heights are present or absent, but not zero. *)
Definition heights_nonzero (p : prop RA) : Prop := pn p HE0 <> Some 0 /\ pn p HE1 <> Some 0.
