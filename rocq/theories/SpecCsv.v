(** Reading a comma separated file (RFC 4180, records ended by a line feed, blank lines skipped), independent of the writer. *)
From Coq Require Export ZArith List Bool.
Export ListNotations.
Open Scope Z_scope.

Inductive place : Set := StartOfField | InField | InQuotes | AfterQuote.
(** [field] and [record] are what has been read of the current field and record; [None]: not a well-formed file. *)
Fixpoint read_from (s : place) (field : list Z) (record : list (list Z)) (t : list Z) : option (list (list (list Z))) :=
  match t with
  | [] => match s, record with StartOfField, [] => Some [] | _, _ => None end
  | c :: t' =>
      let end_field := read_from StartOfField [] (record ++ [field]) t' in
      let end_record := match read_from StartOfField [] [] t' with Some l => Some ((record ++ [field]) :: l) | None => None end in
      match s with
      | StartOfField =>
          if c =? 34 then read_from InQuotes [] record t'
          else if c =? 44 then end_field
          else if c =? 10 then match record with [] => read_from StartOfField [] [] t' | _ => end_record end
          else if c =? 13 then None
          else read_from InField [c] record t'
      | InField =>
          if c =? 44 then end_field else if c =? 10 then end_record else if (c =? 34) || (c =? 13) then None
          else read_from InField (field ++ [c]) record t'
      | InQuotes => if c =? 34 then read_from AfterQuote field record t' else read_from InQuotes (field ++ [c]) record t'
      | AfterQuote =>
          if c =? 34 then read_from InQuotes (field ++ [34]) record t'
          else if c =? 44 then end_field else if c =? 10 then end_record else None
      end
  end.
Definition read_csv (t : list Z) : option (list (list (list Z))) := read_from StartOfField [] [] t.
(** Without carriage returns. *)
Definition no_cr (t : list Z) : Prop := ~ In 13 t.
