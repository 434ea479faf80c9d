(** C62: the result files hold the table that was computed, and the plotting script can pivot it. *)
From Coq Require Import String.
From Verif Require Import RInst SpecCsv Csv PfCsv PfCsv2 PyFloat Cases.
Open Scope string_scope. Open Scope list_scope. Open Scope Z_scope.

(** A table of dictionaries whose keys are among those of the first one: the file is written and reads back as the keys of the
    first dictionary followed by one record per dictionary, each cell the text of the value under that key (empty if there is none). *)
Theorem C62_reads_back : forall (V : Type) (show : V -> text) (old : option text) (first : dict V) (rest : list (dict V)),
  first <> [] -> (forall r, In r (first :: rest) -> NoDup (map fst r)) -> (forall r, In r (first :: rest) -> incl (map fst r) (map fst first)) ->
  Forall no_cr (map fst first) -> (forall r k v, In r (first :: rest) -> In (k, v) r -> no_cr (show v)) ->
  exists t recs, csv_writer show old (first :: rest) = (Some t, Ok tt) /\ read_csv t = Some (map fst first :: recs) /\
    Forall2 (fun (r : dict V) cs => Forall2 (fun k c => (forall v, In (k, v) r -> c = show v) /\ (~ In k (map fst r) -> c = [])) (map fst first) cs) (first :: rest) recs.
Proof. exact (fun V show => csv_read_back show). Qed.
Print Assumptions C62_reads_back.
(** A dictionary with a key the first one lacks: ValueError, and the file holds the rows before it. *)
Theorem C62_unknown_key : forall (V : Type) (show : V -> text) (old : option text) (first : dict V) (before : list (dict V)) (r : dict V) (after : list (dict V)) (k : text),
  (forall r, In r before -> incl (map fst r) (map fst first)) -> In k (map fst r) -> ~ In k (map fst first) ->
  exists t, csv_writer show old (first :: before) = (Some t, Ok tt) /\ csv_writer show old (first :: before ++ r :: after) = (Some t, Err ValueError).
Proof. exact (fun V show => csv_extra show). Qed.
Print Assumptions C62_unknown_key.
(** No results: IndexError, and an existing file is left as it is. *)
Theorem C62_no_rows : forall (V : Type) (show : V -> text) (old : option text), csv_writer show old [] = (old, Err IndexError).
Proof. exact (fun V show old => eq_refl). Qed.
Print Assumptions C62_no_rows.
(** Every table p2p.py returns, in every arithmetic; [show] is Python's str of a number. *)
Theorem C62_p2p_file : forall (A : arith) (show : num A -> text) (old : option text) (z : list (num A)) (p : prop A) out,
  (forall x, no_cr (show x)) -> itmlogic_p2p A z p = Ok out ->
  exists t, csv_writer show old (map (p2p_dict A) (out_rows A out)) = (Some t, Ok tt) /\
    read_csv t = Some ([lit "distance_km"; lit "reliability_level_%"; lit "confidence_level_%"; lit "propagation_loss_dB"] ::
      map (fun r => let '(d, qr, qc, l) := r in [show d; show qr; show qc; show l]) (out_rows A out)).
Proof. exact p2p_file. Qed.
Print Assumptions C62_p2p_file.
(** Every table area.py returns, over exact reals. *)
Theorem C62_area_file : forall (show : R -> text) (old : option text) (c : area_cfg RA) (p : prop RA) rows,
  (forall x, no_cr (show x)) -> cfg_QC RA c <> [] -> itmlogic_area_cfg RA c p = Ok rows ->
  exists t, csv_writer show old (map (area_dict RA) rows) = (Some t, Ok tt) /\
    read_csv t = Some ([lit "distance_km"; lit "confidence_level_%"; lit "propagation_loss_dB"] ::
      map (fun r => let '(d, c, l) := r in [show d; show c; show l]) rows).
Proof. exact area_file. Qed.
Print Assumptions C62_area_file.
Open Scope R_scope.
(** vis.py pivots by distance and confidence (by reliability and confidence) and labels the columns, sorted by confidence,
    10 %, 50 % and 90 %: no pair occurs twice, none is missing, and these are the confidence levels in the table. *)
Theorem C62_area_pivot : forall (p : prop RA) rows, itmlogic_area RA p = Ok rows ->
  NoDup (map fst rows) /\ (forall c, In c (map (fun r => snd (fst r)) rows) <-> c = 10 \/ c = 50 \/ c = 90) /\
  forall d c, In d (map (fun r => fst (fst r)) rows) -> In c [10; 50; 90] -> In (d, c) (map fst rows).
Proof. exact area_legend. Qed.
Print Assumptions C62_area_pivot.
Theorem C62_area_pivot_general : forall (c : area_cfg RA) (p : prop RA) rows, itmlogic_area_cfg RA c p = Ok rows -> NoDup (cfg_QC RA c) ->
  NoDup (map fst rows) /\ forall d q, In d (map (fun r => fst (fst r)) rows) -> In q (cfg_QC RA c) -> In (d, q) (map fst rows).
Proof. exact area_pivot. Qed.
Print Assumptions C62_area_pivot_general.
Theorem C62_p2p_pivot : forall z (p : prop RA) out, itmlogic_p2p RA z p = Ok out ->
  let pairs := map (fun r : R * R * R * R => let '(d, r, c, l) := r in (r, c)) (out_rows RA out) in
  NoDup pairs /\ (forall r c, In (r, c) pairs <-> In r [1; 10; 50; 90; 99] /\ In c [10; 50; 90]).
Proof. exact p2p_legend. Qed.
Print Assumptions C62_p2p_pivot.

Open Scope Z_scope.
(** Two columns, three rows, with a comma, a quote, a line feed, an empty cell and a missing key; a single empty cell; a row of
    a script.  A carriage return is not quoted, and the file is no longer well-formed. *)
Example C62_case :
  let data := [[(lit "a", lit "x,y"); (lit "b", [34; 10])]; [(lit "b", []); (lit "a", lit "1.5")]; [(lit "b", lit "z")]] in
  match csv_writer (fun t => t) None data with
  | (Some t, Ok tt) => read_csv t = Some [[lit "a"; lit "b"]; [lit "x,y"; [34; 10]]; [lit "1.5"; []]; [[]; lit "z"]]
  | _ => False
  end.
Proof. vm_compute. reflexivity. Qed.
Example C62_case_empty_cell : csv_writer (fun t => t) None [[(lit "a", [])]] = (Some ([97; 10; 34; 34; 10]), Ok tt).
Proof. vm_compute. reflexivity. Qed.
Example C62_case_row : csv_writer (fun x : num TA => match x with PI z => [48 + z] | _ => [] end) None [area_dict TA (PI 1, PI 2, PI 3)] =
  (Some (lit "distance_km,confidence_level_%,propagation_loss_dB" ++ [10] ++ lit "1,2,3" ++ [10]), Ok tt).
Proof. vm_compute. reflexivity. Qed.
Example C62_case_carriage_return : match csv_writer (fun t => t) None [[(lit "a", [49; 13; 50])]] with (Some t, Ok tt) => read_csv t = None | _ => False end.
Proof. vm_compute. reflexivity. Qed.
Example C62_case_unknown_key : csv_writer (fun t => t) None [[(lit "a", lit "1")]; [(lit "c", lit "2")]] = (Some [97; 10; 49; 10], Err ValueError).
Proof. vm_compute. reflexivity. Qed.
