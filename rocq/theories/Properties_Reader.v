(** C75: what csv.reader and float() make of a measurement file. *)
From Coq Require Import String Lra Lia.
From Verif Require Import RInst SpecCsv SpecReader PfReader PfReader2 PfReader3 PfReader4 PfReader6 Scripts Reader PyFloat Cases Arith.
Open Scope string_scope. Open Scope list_scope. Open Scope Z_scope.

(** Every table csv_writer writes is read back cell by cell, whatever the cells hold, up to 131072 characters each without carriage
    returns and NUL; no empty records, no error. *)
Theorem C75_round_trip : forall (V : Type) (show : V -> text) (old : option text) (first : dict V) (rest : list (dict V)),
  first <> [] -> (forall r, In r (first :: rest) -> NoDup (map fst r)) -> (forall r, In r (first :: rest) -> incl (map fst r) (map fst first)) ->
  let cell_ok (f : text) := Z.of_nat (length f) <= 131072 /\ ~ In 13 f /\ ~ In 0 f in
  Forall cell_ok (map fst first) -> (forall r k v, In r (first :: rest) -> In (k, v) r -> cell_ok (show v)) ->
  exists t recs, csv_writer show old (first :: rest) = (Some t, Ok tt) /\ csv_reader t = (map fst first :: recs, false) /\
    Forall2 (fun (r : dict V) cs => Forall2 (fun k c => (forall v, In (k, v) r -> c = show v) /\ (~ In k (map fst r) -> c = [])) (map fst first) cs) (first :: rest) recs.
Proof. exact (fun V show => csv_round_trip show). Qed.
Print Assumptions C75_round_trip.

(** Every well-formed file of RFC 4180 records ended by line feeds: the records of the grammar, with an empty record for each blank line. *)
Theorem C75_grammar : forall (t : text) (recs : list (list text)), ~ In 0 t -> no_cr t -> read_csv t = Some recs ->
  Forall (fun f => Z.of_nat (length f) <= 131072) (concat recs) ->
  snd (csv_reader t) = false /\ filter (fun r => match r with [] => false | _ => true end) (fst (csv_reader t)) = recs.
Proof. exact grammar. Qed.
Print Assumptions C75_grammar.

(** Lines without quotes, ended by a line feed, a carriage return or both, the last one with or without ending: one record per line,
    split at the commas; a blank line is an empty record. *)
Theorem C75_plain_file : forall (e : text) (lines : list text) (last : text), line_ending e -> Forall plain_line (lines ++ [last]) ->
  csv_reader (file_of e lines last) =
    (map (fun l => match l with [] => [] | _ => split_commas l end) (lines ++ match last with [] => [] | _ => [last] end), false).
Proof. exact plain_rows. Qed.
Print Assumptions C75_plain_file.

(** float() accepts exactly the decimal numerals with white space around them, and gives the number they denote (exact reals; texts
    with underscores, which Python accepts between digits, apart). *)
Theorem C75_float : forall (t : text) (x : R), ~ In 95 t -> float_of RA t = Ok x <-> denotes t x.
Proof. exact float_denotes. Qed.
Print Assumptions C75_float.
(** In every arithmetic it is the literal with these digits and this power of ten. *)
Theorem C75_float_any : forall (A : arith) a m b, white a -> white b -> is_numeral m -> exists n e,
  numeral_value m = signed Ropp (m_sign m) (IZR n * powerRZ 10 e)%R /\
  float_of A (a ++ numeral_text m ++ b) = Ok (signed n_opp (m_sign m) (if 0 <=? e then n_lit (n * 10 ^ e) 1 else n_lit n (Z.to_pos (10 ^ (- e))))).
Proof. exact float_any. Qed.
Print Assumptions C75_float_any.
(** Anything else is an error: ValueError, or inf and nan, for which Python goes on with a value that is no number. *)
Theorem C75_not_a_number : forall (t : text) (e : exn), ~ In 95 t -> float_of RA t = Err e -> (forall x, ~ denotes t x) /\ (e = ValueError \/ e = NotReal).
Proof. exact (fun t e U H => float_error t e H U). Qed.
Print Assumptions C75_not_a_number.

(** A file whose every line starts with a number: these numbers in order; further columns do not count. *)
Theorem C75_column : forall (t : text) (xs : list R), column_file t xs -> read_column RA (Some t) = (xs, None).
Proof. exact column_read. Qed.
Print Assumptions C75_column.
(** A header, a blank line or a line that does not start with a number stops the reading there, also as last line: IndexError for the
    blank line, the error of float() otherwise. *)
Theorem C75_bad_line : forall (e : text) (lines : list text) (xs : list R) (l : text) (rest : list text) (last : text) (ex : exn),
  line_ending e -> Forall plain_line (lines ++ l :: rest ++ [last]) ->
  Forall2 (fun l x => exists cell, first_cell l cell /\ denotes cell x) lines xs ->
  (l = [] /\ ex = IndexError \/ l <> [] /\ exists cell, first_cell l cell /\ float_of RA cell = Err ex) ->
  read_column RA (Some (file_of e (lines ++ l :: rest) last)) = (xs, Some (Raised ex)).
Proof. exact column_bad. Qed.
Print Assumptions C75_bad_line.

(** Cells with a comma, a quote, a line feed; a blank line; an unended quote; a quote inside a field; NUL. *)
Example C75_case_reader : csv_reader (lit "a,b" ++ [10; 34] ++ lit "x,y" ++ [34; 44; 34; 34; 34; 10; 34; 13; 10; 10] ++ lit "1,2") =
  ([[lit "a"; lit "b"]; [lit "x,y"; [34; 10]]; []; [lit "1"; lit "2"]], false) /\
  csv_reader ([34] ++ lit "a,b") = ([[lit "a,b"]], false) /\ csv_reader (lit "a" ++ [34] ++ lit "b,c") = ([[lit "a" ++ [34] ++ lit "b"; lit "c"]], false) /\
  csv_reader ([97; 10; 98; 0; 10; 99]) = ([[[97]]], true).
Proof. vm_compute. repeat split. Qed.
Example C75_case_float : float_of TA (lit " -12.50e1 ") = Ok (n_opp (n_lit (a := TA) 1250 10)) /\ float_of TA (lit "1_0") = Ok (n_lit (a := TA) 10 1) /\
  map (float_of TA) [lit "height"; lit ""; lit "1,5"; lit "."; lit "1e"; lit "0x10"; lit "nan"] =
    [Err ValueError; Err ValueError; Err ValueError; Err ValueError; Err ValueError; Err ValueError; Err NotReal].
Proof. vm_compute. repeat split. Qed.
Example C75_case_denotes : denotes (lit " -12.50e1 ") (-125)%R.
Proof.
  exists [32], (Numeral Minus [1; 2] (Some [5; 0]) (Some (101, NoSign, [1]))), [32]. split; [repeat constructor|]. split; [repeat constructor|]. split.
  { split; [repeat constructor; lia|]. split; [repeat constructor; lia|]. split; [discriminate|]. split; [left; reflexivity|]. split; [repeat constructor; lia|discriminate]. }
  split; [reflexivity|]. unfold numeral_value. cbn. change (Pos.to_nat 1) with 1%nat. cbn. lra.
Qed.
(** Two columns, line feed and carriage return; then a header. *)
Example C75_case_column : column_file (file_of [13; 10] [lit "100,0"; lit "140,1"] (lit "120")) [100; 140; 120]%R.
Proof.
  exists [13; 10], [lit "100,0"; lit "140,1"], (lit "120"). split; [right; right; reflexivity|]. split; [reflexivity|]. split.
  { repeat constructor; cbn; try lia; intuition discriminate. }
  assert (N : forall a b c : Z, 0 <= a <= 9 -> 0 <= b <= 9 -> 0 <= c <= 9 -> denotes [48 + a; 48 + b; 48 + c] (IZR (10 * (10 * a + b) + c))).
  { intros a b c A B C. exists [], (Numeral NoSign [a; b; c] None None), []. split; [constructor|]. split; [constructor|]. split; [split; [repeat constructor; assumption || lia|split; [constructor|split; [discriminate|exact I]]]|].
    split; [reflexivity|]. unfold numeral_value, whole_value, fraction_value, fraction_digits, signed. cbn [m_sign m_whole m_fraction m_exponent]. rewrite Rplus_0_r, Rmult_1_r. f_equal; ring. }
  constructor; [exists (lit "100"); split; [exists [lit "0"]; reflexivity|exact (N 1 0 0 ltac:(lia) ltac:(lia) ltac:(lia))]|].
  constructor; [exists (lit "140"); split; [exists [lit "1"]; reflexivity|exact (N 1 4 0 ltac:(lia) ltac:(lia) ltac:(lia))]|].
  constructor; [exists (lit "120"); split; [exists []; reflexivity|exact (N 1 2 0 ltac:(lia) ltac:(lia) ltac:(lia))]|constructor].
Qed.
Example C75_case_header : read_column TA (Some (lit "height" ++ [10] ++ lit "100" ++ [10])) = ([], Some (Raised ValueError)) /\
  read_column TA (Some (lit "100" ++ [10; 10])) = ([n_lit (a := TA) 100 1], Some (Raised IndexError)).
Proof. vm_compute. repeat split. Qed.
