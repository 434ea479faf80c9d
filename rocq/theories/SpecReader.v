(** Measurement files: decimal numerals and lines of comma separated cells, independent of the code that reads them. *)
From Coq Require Export ZArith List Bool Reals.
Export ListNotations.
Open Scope Z_scope.

(** A decimal numeral: sign, digits, fraction, exponent; at least one digit outside the exponent. *)
Inductive sign : Set := NoSign | Plus | Minus.
Record numeral : Type := Numeral { m_sign : sign; m_whole : list Z; m_fraction : option (list Z); m_exponent : option (Z * sign * list Z) }.
Definition digits (l : list Z) : Prop := Forall (fun d => 0 <= d <= 9) l.
Definition fraction_digits (m : numeral) : list Z := match m_fraction m with Some l => l | None => [] end.
(** The exponent is introduced by e or E. *)
Definition is_numeral (m : numeral) : Prop :=
  digits (m_whole m) /\ digits (fraction_digits m) /\ m_whole m ++ fraction_digits m <> [] /\
  match m_exponent m with Some (e, _, l) => (e = 101 \/ e = 69) /\ digits l /\ l <> [] | None => True end.
(** How it is written. *)
Definition sign_text (s : sign) : list Z := match s with NoSign => [] | Plus => [43] | Minus => [45] end.
Definition digits_text (l : list Z) : list Z := map (fun d => 48 + d) l.
Definition numeral_text (m : numeral) : list Z :=
  sign_text (m_sign m) ++ digits_text (m_whole m) ++ match m_fraction m with Some l => 46 :: digits_text l | None => [] end ++
  match m_exponent m with Some (e, s, l) => e :: sign_text s ++ digits_text l | None => [] end.
(** What it denotes. *)
Fixpoint whole_value (acc : Z) (l : list Z) : Z := match l with [] => acc | d :: l => whole_value (10 * acc + d) l end.
Fixpoint fraction_value (l : list Z) : R := match l with [] => 0%R | d :: l => ((IZR d + fraction_value l) / 10)%R end.
Definition signed {T} (opp : T -> T) (s : sign) (x : T) : T := match s with Minus => opp x | _ => x end.
Definition numeral_value (m : numeral) : R :=
  signed Ropp (m_sign m) ((IZR (whole_value 0 (m_whole m)) + fraction_value (fraction_digits m)) *
    match m_exponent m with Some (_, s, l) => powerRZ 10 (signed Z.opp s (whole_value 0 l)) | None => 1 end)%R.
(** Blanks, tabs and line breaks. *)
Definition white (t : list Z) : Prop := Forall (fun c => c = 32 \/ 9 <= c <= 13) t.
(** A numeral, possibly between white space, and the number it denotes. *)
Definition denotes (t : list Z) (x : R) : Prop :=
  exists a m b, white a /\ white b /\ is_numeral m /\ t = a ++ numeral_text m ++ b /\ x = numeral_value m.

(** A line without quotes, line breaks and NUL, of at most 131072 characters. *)
Definition plain_line (t : list Z) : Prop := Z.of_nat (length t) <= 131072 /\ ~ In 34 t /\ ~ In 10 t /\ ~ In 13 t /\ ~ In 0 t.
(** Its cells. *)
Fixpoint split_commas (t : list Z) : list (list Z) :=
  match t with
  | [] => [[]]
  | c :: l =>
      if c =? 44 then [] :: split_commas l
      else match split_commas l with f :: r => (c :: f) :: r | [] => [[c]] end
  end.
(** A file of lines, each ended by [ending]; [last] is a line without ending, or nothing. *)
Definition file_of (ending : list Z) (lines : list (list Z)) (last : list Z) : list Z := concat (map (fun l => l ++ ending) lines) ++ last.
Definition line_ending (e : list Z) : Prop := e = [10] \/ e = [13] \/ e = [13; 10].
(** A file in which every line starts with a cell denoting the number; further cells may follow. *)
Definition first_cell (t : list Z) (cell : list Z) : Prop := exists rest, split_commas t = cell :: rest.
Definition column_file (t : list Z) (xs : list R) : Prop :=
  exists e lines last, line_ending e /\ t = file_of e lines last /\ Forall plain_line (lines ++ [last]) /\
  Forall2 (fun l x => exists cell, first_cell l cell /\ denotes cell x) (lines ++ match last with [] => [] | _ => [last] end) xs.
