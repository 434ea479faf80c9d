(** The text files the scripts write: csv_writer of scripts/area.py:224-250 and scripts/p2p.py:233-258 (the same function in
    the two _2tiles scripts), with csv.DictWriter and csv.writer of CPython 3.7 (Lib/csv.py, Modules/_csv.c) for the dialect
    in use: delimiter ',', the double quote as quotechar, doublequote, QUOTE_MINIMAL, no escape character, lineterminator '\n'.
    Texts are lists of Unicode code points.  Creating the directory (:238-240 / :247-249) and the encoding of the file are not modelled. *)
From Verif Require Export Scripts.
From Coq Require Import Ascii String.
Open Scope Z_scope.

Definition text : Type := list Z.
Definition comma : Z := 44.
Definition quote : Z := 34.
Definition lf : Z := 10.

Fixpoint text_eqb (a b : text) : bool :=
  match a, b with
  | [], [] => true
  | x :: a', y :: b' => (x =? y) && text_eqb a' b'
  | _, _ => false
  end.

(** _csv.c join_append_data: a field with a delimiter, a quote or a line terminator is quoted, its quotes doubled. *)
Definition special (c : Z) : bool := (c =? comma) || (c =? quote) || (c =? lf).
Fixpoint doubled (t : text) : text :=
  match t with
  | [] => []
  | c :: l => if c =? quote then quote :: quote :: doubled l else c :: doubled l
  end.
Definition csv_field (t : text) : text := if existsb special t then quote :: doubled t ++ [quote] else t.

Fixpoint joined (fs : list text) : text :=
  match fs with
  | [] => []
  | [f] => csv_field f
  | f :: l => csv_field f ++ comma :: joined l
  end.

(** _csv.c csv_writerow: a record that would be empty although it has a field is written as two quotes. *)
Definition csv_record (fs : list text) : text :=
  (match fs with [[]] => [quote; quote] | _ => joined fs end) ++ [lf].

(** A Python dict: keys in insertion order. *)
Definition dict (V : Type) : Type := list (text * V).

Section Csv.
Context {V : Type} (show : V -> text).   (* str() of a value *)

Fixpoint dict_get (k : text) (r : dict V) : option V :=
  match r with
  | [] => None
  | (k', v) :: l => if text_eqb k k' then Some v else dict_get k l
  end.

(** Lib/csv.py DictWriter._dict_to_list with extrasaction 'raise' and restval ''. *)
Definition dict_to_list (names : list text) (r : dict V) : res (list text) :=
  if existsb (fun kv => negb (existsb (text_eqb (fst kv)) names)) r then Err ValueError
  else Ok (map (fun k => match dict_get k r with Some v => show v | None => [] end) names).

(** writer.writerows(data): what has been written and whether an exception ended it. *)
Fixpoint write_rows (names : list text) (data : list (dict V)) : text * res unit :=
  match data with
  | [] => ([], Ok tt)
  | r :: l =>
      match dict_to_list names r with
      | Err e => ([], Err e)
      | Ok fs => let (t, o) := write_rows names l in (csv_record fs ++ t, o)
      end
  end.

(** csv_writer(data, directory, filename): contents of the file afterwards ([None]: no file) and outcome;
    [old] is the file before the call. *)
Definition csv_writer (old : option text) (data : list (dict V)) : option text * res unit :=
  match data with
  | [] => (old, Err IndexError)                                   (* data[0], area.py:243, p2p.py:252 *)
  | first :: _ =>
      let names := map fst first in                               (* area.py:242-244, p2p.py:251-253 *)
      let (t, o) := write_rows names data in
      (Some (csv_record names ++ t), o)                           (* area.py:246-249, p2p.py:255-258 *)
  end.

End Csv.

(** A string literal as code points. *)
Fixpoint lit (s : string) : text :=
  match s with
  | EmptyString => []
  | String a s' => Z.of_N (N_of_ascii a) :: lit s'
  end.

Section Tables.
Context (A : arith).
(** The dictionaries appended at area.py:208-212. *)
Definition area_dict (r : num A * num A * num A) : dict (num A) :=
  let '(d, c, l) := r in
  [(lit "distance_km", d); (lit "confidence_level_%", c); (lit "propagation_loss_dB", l)].
(** The dictionaries appended at p2p.py:223-228. *)
Definition p2p_dict (r : num A * num A * num A * num A) : dict (num A) :=
  let '(d, qr, qc, l) := r in
  [(lit "distance_km", d); (lit "reliability_level_%", qr); (lit "confidence_level_%", qc); (lit "propagation_loss_dB", l)].
End Tables.
