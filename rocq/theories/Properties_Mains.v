(** C70: the scripts run as programs: which files they leave, and that point-to-point does not use the terrain it measures.
    [w] is the state of the four output files before the run, the pair after it their state and how the program ended;
    [show] is Python's str of a number. *)
From Coq Require Import String.
From Verif Require Import RInst SpecMains PfMains PyFloat Cases Arith.
Open Scope list_scope. Open Scope R_scope.

(** p2p.py, in every arithmetic: it ends normally exactly when the results file is there and reads back as the table that
    itmlogic_p2p returns; ending with an exception leaves the results file as it was. *)
Theorem C70_p2p_results : forall (A : arith) (show : num A -> text) geod dem a b na nb (p : prop A) z w, (forall x, no_cr (show x)) ->
  match p2p_program A show geod dem a b na nb p z w with
  | (w', Ok tt) => exists out t, itmlogic_p2p A z p = Ok out /\ f_results A w' = Some t /\ read_csv t = Some (p2p_sheet A show (out_rows A out))
  | (w', Err _) => f_results A w' = f_results A w
  end.
Proof. exact p2p_results. Qed.
Print Assumptions C70_p2p_results.

(** The elevation model and the geodesic are measured along the line between the antennas, but two that both measure
    something leave the same results file and the same outcome: the prediction is made on the fixed profile [z]. *)
Theorem C70_terrain_unused : forall (A : arith) (show : num A -> text) geod dem geod' dem' a b na nb (p : prop A) z w m km pts m' km' pts',
  terrain_p2p A geod dem (straight_line_from_points A a b) = Ok (m, km, pts) -> terrain_p2p A geod' dem' (straight_line_from_points A a b) = Ok (m', km', pts') -> pts <> [] -> pts' <> [] ->
  f_results A (fst (p2p_program A show geod' dem' a b na nb p z w)) = f_results A (fst (p2p_program A show geod dem a b na nb p z w)) /\
  snd (p2p_program A show geod' dem' a b na nb p z w) = snd (p2p_program A show geod dem a b na nb p z w).
Proof. exact p2p_unused. Qed.
Print Assumptions C70_terrain_unused.

(** Over exact reals: any two elevation models that know the whole line, and any two lengths. *)
Theorem C70_terrain_unused_real : forall (show : R -> text) (geod geod' : (R * R) * (R * R) -> R) (dem dem' : R * R -> option R) a b na nb (p : prop RA) z w,
  0 <= geod (a, b) -> 0 <= geod' (a, b) -> (forall u, 0 <= u < 1 -> dem (on_way a b u) <> None /\ dem' (on_way a b u) <> None) ->
  f_results RA (fst (p2p_program RA show geod' dem' a b na nb p z w)) = f_results RA (fst (p2p_program RA show geod dem a b na nb p z w)) /\
  snd (p2p_program RA show geod' dem' a b na nb p z w) = snd (p2p_program RA show geod dem a b na nb p z w).
Proof. exact p2p_unused_real. Qed.
Print Assumptions C70_terrain_unused_real.

(** Exact reals, elevation model [dem] known along the whole line, with heights [h]: an exception of itmlogic_p2p (C65 says
    when) leaves all four files untouched; otherwise the four files are the two antennas, the 2 to 600 sample points with
    their elevations, and the table. *)
Theorem C70_p2p_files : forall (show : R -> text) (geod : (R * R) * (R * R) -> R) (dem : R * R -> option R) (h : R * R -> R) a b na nb (p : prop RA) z w,
  (forall x, no_cr (show x)) -> 0 <= geod (a, b) -> (forall u, 0 <= u < 1 -> dem (on_way a b u) = Some (h (on_way a b u))) ->
  (forall e, itmlogic_p2p RA z p = Err e -> p2p_program RA show geod dem a b na nb p z w = (w, Err e)) /\
  (forall out, itmlogic_p2p RA z p = Ok out -> exists n t, (2 <= n <= 600)%nat /\ read_csv t = Some (p2p_sheet RA show (out_rows RA out)) /\
     p2p_program RA show geod dem a b na nb p z w = (Files RA (Some (one_point RA a na)) (Some (one_point RA b nb))
       (Some (elevations (map (fun k => (on_way a b (part k n), h (on_way a b (part k n)))) (seq 0 n)))) (Some t), Ok tt)).
Proof. exact p2p_files. Qed.
Print Assumptions C70_p2p_files.

(** One sample point outside the elevation model: TypeError, and no file is touched. *)
Theorem C70_p2p_hole : forall (show : R -> text) (geod : (R * R) * (R * R) -> R) (dem : R * R -> option R) a b na nb (p : prop RA) z w, 0 <= geod (a, b) ->
  (exists n k, determine_num_samples RA (geod (a, b)) = Ok (Z.of_nat n) /\ (k < n)%nat /\ dem (on_way a b (part k n)) = None) ->
  p2p_program RA show geod dem a b na nb p z w = (w, Err TypeError).
Proof. exact p2p_hole. Qed.
Print Assumptions C70_p2p_hole.

(** p2p_2tiles.py writes the sample points first: an exception of itmlogic_p2p leaves the old results beside the new points. *)
Theorem C70_two_tiles : forall (show : R -> text) (geod : (R * R) * (R * R) -> R) (dem : R * R -> option R) (h : R * R -> R) a b (p : prop RA) z w,
  (forall x, no_cr (show x)) -> 0 <= geod (a, b) -> (forall u, 0 <= u < 1 -> dem (on_way a b u) = Some (h (on_way a b u))) ->
  exists n, (2 <= n <= 600)%nat /\ let points := Some (elevations (map (fun k => (on_way a b (part k n), h (on_way a b (part k n)))) (seq 0 n))) in
  (forall e, itmlogic_p2p RA z p = Err e -> p2p_2tiles_program RA show geod dem a b p z w = (Files RA (f_transmitter RA w) (f_receiver RA w) points (f_results RA w), Err e)) /\
  (forall out, itmlogic_p2p RA z p = Ok out -> exists t, read_csv t = Some (p2p_sheet RA show (out_rows RA out)) /\
     p2p_2tiles_program RA show geod dem a b p z w = (Files RA (f_transmitter RA w) (f_receiver RA w) points (Some t), Ok tt)).
Proof. exact tiles_files. Qed.
Print Assumptions C70_two_tiles.
Theorem C70_two_tiles_results : forall (A : arith) (show : num A -> text) geod dem a b (p : prop A) z w, (forall x, no_cr (show x)) ->
  match p2p_2tiles_program A show geod dem a b p z w with
  | (w', Ok tt) => exists out t, itmlogic_p2p A z p = Ok out /\ f_results A w' = Some t /\ read_csv t = Some (p2p_sheet A show (out_rows A out))
  | (w', Err _) => f_results A w' = f_results A w
  end.
Proof. exact tiles_results. Qed.
Print Assumptions C70_two_tiles_results.

(** area.py, in every arithmetic: the results file is the table for the interdecile range of the cells, or, after an
    exception, every file is as it was. *)
Theorem C70_area_results : forall (A : arith) (show : num A -> text) cells (p : prop A) w, (forall x, no_cr (show x)) ->
  match area_program A show cells p w with
  | (w', Ok tt) => exists tip rows t, interdecile_range A cells = Ok tip /\ itmlogic_area A (setn p DH (n_Z tip)) = Ok rows /\ f_results A w' = Some t /\ read_csv t = Some (area_sheet A show rows)
  | (w', Err _) => w' = w
  end.
Proof. exact area_results. Qed.
Print Assumptions C70_area_results.

(** Exact reals, any cells of terrain differing by at most 500 m: the 66 rows are in the file, or the program ends with
    ZeroDivisionError and touches nothing, exactly when a distance of the grid meets a coincidence (C64). *)
Theorem C70_area_files : forall (show : R -> text) (cells : list R) (p : prop RA) f h0 h1 w, (forall x, no_cr (show x)) ->
  cells <> [] -> (forall a b, In a cells -> In b cells -> b - a <= 500) -> area_entries p f h0 h1 ->
  exists k v, interdecile_range RA cells = Ok k /\ (0 <= k <= 500)%Z /\ area_values 2 2 (setn p DH (IZR k)) v /\
    ((exists x, In x script_distances /\ divides_by_zero v (x * 1000)) -> area_program RA show cells p w = (w, Err ZeroDivisionError)) /\
    (~ (exists x, In x script_distances /\ divides_by_zero v (x * 1000)) -> exists rows t,
       map fst rows = flat_map (fun d => map (fun q => (d, q)) [50; 90; 10]) script_distances /\
       read_csv t = Some (area_sheet RA show rows) /\ itmlogic_area RA (setn p DH (IZR k)) = Ok rows /\
       area_program RA show cells p w = (Files RA (f_transmitter RA w) (f_receiver RA w) (f_points RA w) (Some t), Ok tt)).
Proof. exact area_exact_files. Qed.
Print Assumptions C70_area_files.
(** No cell of terrain at all: an exception, and nothing touched. *)
Theorem C70_area_empty : forall (show : R -> text) (p : prop RA) w, exists e, area_program RA show [] p w = (w, Err e).
Proof. exact area_empty. Qed.
Print Assumptions C70_area_empty.

(** The programs as shipped: the requests of C65 and C64 (with antennas of 143.9 m and 8.5 m at 41.5 MHz over 77.8 km, and of
    3.3 m and 1.3 m at 20 MHz); cells between 12 m and 77 m. *)
Example C70_p2p_request : path_request (p2p_main_params RA) (p2p_main_profile RA) 77.8 41.5 143.9 8.5 0.
Proof. exact p2p_main_request. Qed.
Example C70_area_request : area_entries (area_main_params RA) 20 3.3 1.3 /\ (forall a b, In a [12; 30; 77] -> In b [12; 30; 77] -> b - a <= 500).
Proof. split; [exact area_main_entries|]. cbn. intuition (subst; lra). Qed.
(** Flat land and an alp of 4000 m between the two antennas are both measured, with different heights. *)
Example C70_two_terrains : forall a b : R * R, exists m km q m' km' q' qs qs',
  terrain_p2p RA (fun _ => 77800) (fun _ => Some 0) (straight_line_from_points RA a b) = Ok (m, km, q :: qs) /\
  terrain_p2p RA (fun _ => 77800) (fun _ => Some 4000) (straight_line_from_points RA a b) = Ok (m', km', q' :: qs') /\ m <> m'.
Proof. exact two_terrains. Qed.
