(** src/itmlogic/misc: qerf, qerfi, qtile. *)
From Verif Require Export Dict.

Section Misc.
Context (A : arith).
Notation num := (num A).
Local Open Scope num_scope.

(** misc/qerf.py:3-48. *)
Definition qerf_b1 : num := 319381530 // 1000000000.
Definition qerf_b2 : num := (-356563782) // 1000000000.
Definition qerf_b3 : num := 1781477937 // 1000000000.
Definition qerf_b4 : num := (-1821255987) // 1000000000.
Definition qerf_b5 : num := 1330274429 // 1000000000.
Definition qerf_rp : num := 4317008 // 1000000.
Definition qerf_rrt2pi : num := 398942280 // 1000000000.

Definition qerf (z : num) : res num :=
  let x := z in
  let t := n_abs x in
  let! q :=
    (if t >=? #10 then Ok #0                                  (* :32-34 *)
     else
       let! t := qerf_rp /? (t + qerf_rp) in                  (* :38 *)
       let! x2 := n_powZ x 2 in
       let! e := m_exp ((-5) // 10 * x2) in
       Ok (e * qerf_rrt2pi *
           ((((qerf_b5 * t + qerf_b4) * t + qerf_b3) * t + qerf_b2) * t + qerf_b1) * t)) in
  if x <? #0 then Ok (#1 - q) else Ok q.                      (* :45-48 *)

(** misc/qerfi.py:20-25, constants. *)
Definition qerfi_c0 : num := 2515516698 // 1000000000.
Definition qerfi_c1 : num := 802853 // 1000000.
Definition qerfi_c2 : num := 10328 // 1000000.
Definition qerfi_d1 : num := 1432788 // 1000000.
Definition qerfi_d2 : num := 189269 // 1000000.
Definition qerfi_d3 : num := 1308 // 1000000.

(** One pass of the loops of misc/qerfi.py:27-53 for one level [q]. *)
Definition qerfi1 (q : num) : res num :=
  let x := 5 // 10 - q in                                     (* :27 *)
  let t := pymax (5 // 10 - n_abs x) (1 // 1000000) in        (* :33 *)
  let! l := np_log t in
  let! i := m_sqrt (#(-2) * l) in                             (* :39 *)
  let! r := ((qerfi_c2 * i + qerfi_c1) * i + qerfi_c0) /?
            (((qerfi_d3 * i + qerfi_d2) * i + qerfi_d1) * i + #1) in
  let y := i - r in                                           (* :41-46 *)
  let y := if x <? #0 then - y else y in                      (* :48-49 *)
  n_round y 4.                                                (* :51 *)

(** misc/qerfi.py:4-55: one output per requested level.  The three loops (x, t, output) are fused: no
    iteration depends on another one. *)
Definition qerfi (q : list num) : res (list num) := mapM qerfi1 q.

(** [sorted(a, reverse=True)], stable; insertion sort on [<] (agrees with Timsort on totally ordered
    input; on NaN the order of Timsort is unspecified here). *)
Fixpoint insert_desc (x : num) (l : list num) : list num :=
  match l with
  | [] => [x]
  | y :: l' => if y <? x then x :: y :: l' else y :: insert_desc x l'
  end.
Definition sort_desc (a : list num) : list num := fold_left (fun l x => insert_desc x l) a [].

(** misc/qtile.py:3-24. *)
Definition qtile (a : list num) (ir : Z) : res num := pyget (sort_desc a) ir.

End Misc.
