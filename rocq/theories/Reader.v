(** The measurement files of scripts/pimter.py and the script run as a program: its __main__ block (:173-202) with csv.reader of
    CPython 3.7 (Modules/_csv.c) for the default dialect, open() in text mode with universal newlines, and float() of a str
    (Objects/floatobject.c, Python/pystrtod.c).  Texts are lists of Unicode code points; decoding of the file, digits and white space
    outside ASCII in float() are not modelled. *)
From Verif Require Export Csv.
From Coq Require Import String List.
Open Scope Z_scope.

Definition cr : Z := 13.
Definition nul : Z := 0.

(** What can end the program: an exception the library or float() can raise, or one of the three that only occur here. *)
Inductive stop : Set := Raised (e : exn) | CsvError | FileNotFoundError | NameError.

(** open(path): a carriage return, alone or before a line feed, is read as a line feed. *)
Fixpoint universal (t : text) : text :=
  match t with
  | [] => []
  | c :: l =>
      if c =? cr then lf :: match l with d :: l' => if d =? lf then universal l' else universal l | [] => [] end
      else c :: universal l
  end.

(** The states of _csv.c ParserState that occur without an escape character. *)
Inductive rstate : Set := START_RECORD | START_FIELD | IN_FIELD | IN_QUOTED_FIELD | QUOTE_IN_QUOTED_FIELD | EAT_CRNL.
Record reader : Type := Reader { r_state : rstate; r_field : text; r_fields : list text }.
Definition fresh_reader : reader := Reader START_RECORD [] [].
(** csv.field_size_limit(). *)
Definition field_limit : Z := 131072.

(** _csv.c parse_save_field, parse_add_char; [None] is _csv.Error. *)
Definition save_field (s : rstate) (r : reader) : reader := Reader s [] (r_fields r ++ [r_field r]).
Definition add_char (s : rstate) (c : Z) (r : reader) : option reader :=
  if field_limit <=? Z.of_nat (length (r_field r)) then None else Some (Reader s (r_field r ++ [c]) (r_fields r)).

(** _csv.c parse_process_char; [None] as character is the end of the line that iternext feeds after each line. *)
Definition after_break (c : option Z) : rstate := match c with None => START_RECORD | _ => EAT_CRNL end.
Definition is_break (c : option Z) : bool := match c with None => true | Some c => (c =? lf) || (c =? cr) end.
Definition start_field (r : reader) (c : option Z) : option reader :=
  if is_break c then Some (save_field (after_break c) r)
  else match c with
  | None => Some r
  | Some c =>
      if c =? quote then Some (Reader IN_QUOTED_FIELD (r_field r) (r_fields r))
      else if c =? comma then Some (save_field START_FIELD r)
      else add_char IN_FIELD c r
  end.
Definition process_char (r : reader) (c : option Z) : option reader :=
  match r_state r with
  | START_RECORD =>
      match c with
      | None => Some r
      | Some _ => if is_break c then Some (Reader EAT_CRNL (r_field r) (r_fields r)) else start_field r c
      end
  | START_FIELD => start_field r c
  | IN_FIELD =>
      if is_break c then Some (save_field (after_break c) r)
      else match c with
      | None => Some r
      | Some c => if c =? comma then Some (save_field START_FIELD r) else add_char IN_FIELD c r
      end
  | IN_QUOTED_FIELD =>
      match c with
      | None => Some r
      | Some c => if c =? quote then Some (Reader QUOTE_IN_QUOTED_FIELD (r_field r) (r_fields r)) else add_char IN_QUOTED_FIELD c r
      end
  | QUOTE_IN_QUOTED_FIELD =>
      match c with
      | Some c' =>
          if c' =? quote then add_char IN_QUOTED_FIELD c' r
          else if c' =? comma then Some (save_field START_FIELD r)
          else if is_break c then Some (save_field EAT_CRNL r)
          else add_char IN_FIELD c' r
      | None => Some (save_field START_RECORD r)
      end
  | EAT_CRNL =>
      match c with
      | None => Some (Reader START_RECORD (r_field r) (r_fields r))
      | Some _ => if is_break c then Some r else None
      end
  end.

(** _csv.c Reader_iternext called until it stops: the records and whether _csv.Error ended them.  The end of a line is fed after a
    line feed and after the last character of the file; a NUL is an error. *)
Fixpoint reader_rows (r : reader) (t : text) : list (list text) * bool :=
  match t with
  | [] =>
      match r_state r, r_field r with
      | IN_QUOTED_FIELD, _ | _, _ :: _ => ([r_fields r ++ [r_field r]], false)
      | _, [] => ([], false)
      end
  | c :: t' =>
      if c =? nul then ([], true)
      else match process_char r (Some c) with
      | None => ([], true)
      | Some r =>
          if (c =? lf) || match t' with [] => true | _ => false end then
            match process_char r None with
            | None => ([], true)
            | Some r =>
                match r_state r with
                | START_RECORD => let (l, e) := reader_rows fresh_reader t' in (r_fields r :: l, e)
                | _ => reader_rows r t'
                end
            end
          else reader_rows r t'
      end
  end.
(** csv.reader(open(path)) for a file with this content. *)
Definition csv_reader (t : text) : list (list text) * bool := reader_rows fresh_reader (universal t).

(** Py_ISSPACE, Py_ISDIGIT. *)
Definition is_space (c : Z) : bool := (c =? 32) || ((9 <=? c) && (c <=? 13)).
Definition is_digit (c : Z) : bool := (48 <=? c) && (c <=? 57).

Fixpoint drop_spaces (t : text) : text :=
  match t with [] => [] | c :: l => if is_space c then drop_spaces l else t end.
(** floatobject.c PyFloat_FromString: white space at both ends. *)
Definition strip (t : text) : text := rev (drop_spaces (rev (drop_spaces t))).

(** pystrtod.c _Py_string_to_number_with_underscores: underscores only between digits. *)
Fixpoint no_underscores (prev : Z) (t : text) : option text :=
  match t with
  | [] => if prev =? 95 then None else Some []
  | c :: l =>
      if c =? 95 then if is_digit prev then no_underscores c l else None
      else if (prev =? 95) && negb (is_digit c) then None
      else match no_underscores c l with Some l' => Some (c :: l') | None => None end
  end.

(** The leading digits, their value continuing n, how many, and the rest. *)
Fixpoint take_digits (n : Z) (k : Z) (t : text) : Z * Z * text :=
  match t with
  | c :: l => if is_digit c then take_digits (10 * n + (c - 48)) (k + 1) l else (n, k, t)
  | [] => (n, k, t)
  end.
(** The point and the digits after it. *)
Definition take_fraction (n : Z) (t : text) : Z * Z * text :=
  match t with
  | c :: l => if c =? 46 then take_digits n 0 l else (n, 0, t)
  | [] => (n, 0, t)
  end.
(** A sign (dtoa.c:1451-1461, :1577-1584): whether negative, and the rest. *)
Definition take_sign (t : text) : bool * text :=
  match t with
  | c :: l => if c =? 45 then (true, l) else if c =? 43 then (false, l) else (false, t)
  | [] => (false, [])
  end.
Definition lower (c : Z) : Z := if (65 <=? c) && (c <=? 90) then c + 32 else c.

Section Reader.
Context (A : arith).
Notation num := (num A).

(** dtoa.c _Py_dg_strtod on the whole text after the sign: digits, point, digits, exponent; at least one digit before the exponent. *)
Definition decimal (t : text) : option (Z * Z) :=                  (* value n * 10^e *)
  let '(n, k, t) := take_digits 0 0 t in
  let '(n, k', t) := take_fraction n t in
  if k + k' =? 0 then None
  else match t with
  | [] => Some (n, - k')
  | c :: l =>
      if lower c =? 101 then
        let (minus, l) := take_sign l in
        let '(e, ke, l) := take_digits 0 0 l in
        if ke =? 0 then None
        else match l with [] => Some (n, (if minus then - e else e) - k') | _ => None end
      else None
  end.
(** In PyA n_lit rounds numerator and denominator before it divides, which is correct rounding for up to 15 digits and powers up to 22. *)
Definition scaled (n e : Z) : num := if 0 <=? e then n_lit (n * 10 ^ e) 1 else n_lit n (Z.to_pos (10 ^ (- e))).

(** float(t).  inf and nan (pystrtod.c _Py_parse_inf_or_nan) are NotReal: Python continues with an infinity or a NaN. *)
Definition float_of (t : text) : res num :=
  match no_underscores 0 (strip t) with
  | None => Err ValueError
  | Some t =>
      let (minus, t) := take_sign t in
      match decimal t with
      | Some (n, e) => Ok (if minus then n_opp (scaled n e) else scaled n e)
      | None =>
          let l := map lower t in
          if text_eqb l (lit "inf") || text_eqb l (lit "infinity") || text_eqb l (lit "nan") then Err NotReal else Err ValueError
      end
  end.

(** pimter.py:187-189 and :195-197: the first cell of every record. *)
Fixpoint first_cells (rows : list (list text)) (broken : bool) : list num * option stop :=
  match rows with
  | [] => ([], if broken then Some CsvError else None)
  | row :: l =>
      match pyget row 0 with
      | Err e => ([], Some (Raised e))
      | Ok cell =>
          match float_of cell with
          | Err e => ([], Some (Raised e))
          | Ok x => let (xs, s) := first_cells l broken in (x :: xs, s)
          end
      end
  end.
Definition read_column (content : option text) : list num * option stop :=
  match content with
  | None => ([], Some FileNotFoundError)
  | Some t => let (rows, broken) := csv_reader t in first_cells rows broken
  end.

(** run_itmlogic as a function of pimter.py (:28-171), with what the module's global terrain_height_no_tree holds ([None]: never
    assigned).  The name is looked up at :106, after the deviates, the curvature and the first two distances (:89-105). *)
Definition run_itmlogic_call (global : option (list num)) (surface_profile_m distance_km : list num) : list (num * num * num * num) + stop :=
  match global with
  | Some z => match run_itmlogic A z distance_km with Ok rows => inl rows | Err e => inr (Raised e) end
  | None =>
      match (let! _ := pimter_dev A in let! _ := script_gme A (n_Z 314) (n_lit 157 1000000000) (empty_prop A) in
             let! d1 := pyget distance_km 1 in let! d0 := pyget distance_km 0 in Ok tt) with
      | Err e => inr (Raised e)
      | Ok _ => inr NameError
      end
  end.

(** pimter.py:182-202 for pairs of file names: the names announced as completed, and what ended the program ([None]: normally).
    [disk] gives the contents of the files in the data directory. *)
Fixpoint pimter_files (disk : text -> option text) (files : list (text * text)) : list text * option stop :=
  match files with
  | [] => ([], None)
  | (heights, lengths) :: rest =>
      let (z, s) := read_column (disk heights) in                  (* :184-189 *)
      match s with
      | Some s => ([], Some s)
      | None =>
          let (d, s) := read_column (disk lengths) in              (* :192-197 *)
          match s with
          | Some s => ([], Some s)
          | None =>
              match run_itmlogic_call (Some z) z d with            (* :199 *)
              | inr s => ([], Some s)
              | inl results =>                                     (* results is not used *)
                  let (done, s) := pimter_files disk rest in (heights :: done, s)   (* :201 *)
              end
          end
      end
  end.
(** pimter.py:175-182. *)
Definition pimter_main_files : list (text * text) :=
  [(lit "PIMTER_Tx_Rx1_dem_height.csv", lit "PIMTER_Tx_Rx1_dem_length.csv");
   (lit "PIMTER_2019_Rx_Tx0_dem_height.csv", lit "PIMTER_2019_Rx_Tx0_dem_length.csv");
   (lit "PIMTER_2019_Rx_Tx2_dem_height.csv", lit "PIMTER_2019_Rx_Tx2_dem_length.csv");
   (lit "PIMTER_2019_Rx_Tx3_dem_height.csv", lit "PIMTER_2019_Rx_Tx3_dem_length.csv");
   (lit "PIMTER_2019_Rx_Tx4_dem_height.csv", lit "PIMTER_2019_Rx_Tx4_dem_length.csv");
   (lit "PIMTER_2019_Rx_Tx5_dem_height.csv", lit "PIMTER_2019_Rx_Tx5_dem_length.csv")].
Definition pimter_program (disk : text -> option text) : list text * option stop := pimter_files disk pimter_main_files.
End Reader.
