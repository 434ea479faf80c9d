(** The same path over terrain raised or tilted as a whole. *)
From Verif Require Export SpecReverse.
Open Scope R_scope.

(** q has the entries of p, profile apart, with the take-off angles turned by s: up at the transmitter, down at the receiver.
    Entries listed in X may differ; kwx is present in both or in none. *)
Record turned_by (s : R) (X : list zkey) (p q : prop RA) : Prop := {
  tb_n : forall k, k <> THE0 -> k <> THE1 -> pn q k = pn p k;
  tb_0 : pn q THE0 = option_map (fun t : R => t + s) (pn p THE0);
  tb_1 : pn q THE1 = option_map (fun t : R => t - s) (pn p THE1);
  tb_z : forall k, ~ In k X -> pz q k = pz p k;
  tb_b : forall k, pb q k = pb p k;
  tb_k : pz q KWX = None <-> pz p KWX = None }.
(** All entries but the profile are equal. *)
Definition same_entries (p q : prop RA) : Prop :=
  (forall k, pn q k = pn p k) /\ (forall k, pz q k = pz p k) /\ (forall k, pb q k = pb p k).
(** Take-off angles of at most 0.2 rad. *)
Definition gentle (p : prop RA) : Prop := forall t : R, pn p THE0 = Some t \/ pn p THE1 = Some t -> Rabs t <= 2 / 10.
(** Heights with the line a + b*k added. *)
Definition inclined (a b : R) (z : list R) : list R := map (fun k => nth k z 0 + (a + b * INR k)) (seq 0 (length z)).
(** The profile pimter.py uses for heights z at the given distances: the first step is taken for all. *)
Definition walked_path (dist z : list R) : profile RA := @Profile RA (Z.of_nat (length dist) - 1) (nth 1 dist 0 - nth 0 dist 0)%R z.
