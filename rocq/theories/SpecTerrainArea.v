(** Windows of a raster around a transmitter. *)
From Verif Require Export SpecScripts TerrainArea RInst.
Open Scope R_scope.

(** How many cells are masked, and how many are not. *)
Definition outside (w : masked_array RA) : nat := length (filter snd w).
Definition inside (w : masked_array RA) : nat := length (filter (fun c => negb (snd c)) w).
(** The heights within the range of the transmitter. *)
Definition in_range (w : masked_array RA) (h : R) : Prop := In (h, false) w.
(** Flat at c within the range and flat at c' around it. *)
Definition plateau (w : masked_array RA) (c c' : R) : Prop := forall h m, In (h, m) w -> h = if m then c' else c.
(** More than a tenth of the cells (and one) are of the given number. *)
Definition over_a_tenth (k : nat) (w : masked_array RA) : Prop := (length w + 9 < 10 * k)%nat.
