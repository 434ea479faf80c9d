(** What the programs p2p.py and area.py are given and leave behind. *)
From Coq Require Import String.
From Verif Require Export SpecCsv SpecPath SpecAreaRun SpecPathRun Mains.
Open Scope R_scope.

(** The entries of the dictionary before the terrain irregularity is filled in: frequency (MHz), antenna heights (m), polarisation. *)
Definition area_entries (p : prop RA) (f h0 h1 : R) : Prop :=
  pn p FMHZ = Some f /\ pn p HG0 = Some h0 /\ pn p HG1 = Some h1 /\ (exists pol, pz p IPOL = Some pol) /\ 1 <= f /\ 0.5 <= h0 <= 3000 /\ 0.5 <= h1 <= 3000.
(** A shapefile of one named point. *)
Definition one_point (A : arith) (x : point A) (name : text) : shapefile A := Shapefile A [(lit "id", FStr)] [Feature A x [(lit "id", PText A name)]].
(** A shapefile of the points with an elevation. *)
Definition elevations (l : list (point RA * R)) : shapefile RA :=
  Shapefile RA [(lit "elevation", FFloat)] (map (fun x => Feature RA (fst x) [(lit "elevation", PFloat RA (snd x))]) l).
(** What a spreadsheet reads from the results file. *)
Definition p2p_sheet (A : arith) (show : num A -> text) (rows : list (num A * num A * num A * num A)) : list (list text) :=
  [lit "distance_km"; lit "reliability_level_%"; lit "confidence_level_%"; lit "propagation_loss_dB"] :: map (fun r => let '(d, qr, qc, l) := r in [show d; show qr; show qc; show l]) rows.
Definition area_sheet (A : arith) (show : num A -> text) (rows : list (num A * num A * num A)) : list (list text) :=
  [lit "distance_km"; lit "confidence_level_%"; lit "propagation_loss_dB"] :: map (fun r => let '(d, c, l) := r in [show d; show c; show l]) rows.
