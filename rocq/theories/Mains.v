(** The scripts run as programs: the __main__ blocks of scripts/p2p.py:340-444 and scripts/area.py:251-301 (area_2tiles.py:251-300 differs
    in the file names and the coordinates only) and p2p_2tiles.py:338-441, with write_shapefile
    (p2p.py:259-301).  Parameters: [geod] and [dem] as in TerrainPath.v, [show] as in Csv.v, [cells], the values of the raster
    cells rasterstats passes to interdecile_range (terrain_module.py:50-61, see TerrainArea.v).  Messages on the terminal are not modelled, nor
    are directories and the binary format of shapefiles: a shapefile is what fiona is given to write. *)
From Verif Require Export TerrainPath Csv.
From Coq Require Import String.
Open Scope Z_scope.

Section Mains.
Context (A : arith).
Notation num := (num A).

(** A value under 'properties' of a geojson feature: a str or a float. *)
Inductive property := PText (t : text) | PFloat (x : num).
(** A geojson point feature (p2p.py:386-407, terrain_module.py:170-180). *)
Record feature := Feature { ft_point : point A; ft_properties : list (text * property) }.
Inductive field_type := FStr | FFloat.
(** A shapefile: its fields with their types, and the features written. *)
Record shapefile := Shapefile { sh_fields : list (text * field_type); sh_features : list feature }.

(** fiona.FIELD_TYPES_MAP read backwards (p2p.py:277-281): the type str or float. *)
Definition type_of (v : property) : field_type := match v with PText _ => FStr | PFloat _ => FFloat end.

(** p2p.py:259-301. *)
Definition write_shapefile (data : list feature) : res shapefile :=
  match data with
  | [] => Err IndexError                                                             (* data[0], :275 *)
  | d :: _ => Ok (Shapefile (map (fun kv => (fst kv, type_of (snd kv))) (ft_properties d)) data)   (* :275-301 *)
  end.

(** The files the programs write. *)
Record files := Files { f_transmitter : option shapefile; f_receiver : option shapefile; f_points : option shapefile; f_results : option text }.

(** A feature of terrain_p2p's third result (terrain_module.py:170-180). *)
Definition sample_feature (q : point A * num) : feature := Feature (fst q) [(lit "elevation", PFloat (snd q))].

(** p2p.py:340-444 for terminals a, b with names na, nb, the radio parameters p and the surface profile z. *)
Definition p2p_program (show : num -> text) (geod : point A * point A -> num) (dem : point A -> option num)
    (a b : point A) (na nb : text) (p : prop A) (z : list num) (w : files) : files * res unit :=
  match terrain_p2p A geod dem (straight_line_from_points A a b) with                 (* :410-415 *)
  | Err e => (w, Err e)
  | Ok (measured, distance_km, points) =>
  match itmlogic_p2p A z p with                                                      (* :423 *)
  | Err e => (w, Err e)
  | Ok out =>
  match write_shapefile [Feature a [(lit "id", PText na)]] with                      (* :431-433 *)
  | Err e => (w, Err e)
  | Ok s1 => let w := Files (Some s1) (f_receiver w) (f_points w) (f_results w) in
  match write_shapefile [Feature b [(lit "id", PText nb)]] with                      (* :435-437 *)
  | Err e => (w, Err e)
  | Ok s2 => let w := Files (f_transmitter w) (Some s2) (f_points w) (f_results w) in
  match write_shapefile (map sample_feature points) with                             (* :439 *)
  | Err e => (w, Err e)
  | Ok s3 => let w := Files (f_transmitter w) (f_receiver w) (Some s3) (f_results w) in
  let (t, o) := csv_writer show (f_results w) (map (p2p_dict A) (out_rows A out)) in (* :442 *)
  (Files (f_transmitter w) (f_receiver w) (f_points w) t, o)
  end end end end end.

(** p2p_2tiles.py:338-441: the sample points are written before the prediction is made, the terminals not at all. *)
Definition p2p_2tiles_program (show : num -> text) (geod : point A * point A -> num) (dem : point A -> option num)
    (a b : point A) (p : prop A) (z : list num) (w : files) : files * res unit :=
  match terrain_p2p A geod dem (straight_line_from_points A a b) with                 (* :408-412 *)
  | Err e => (w, Err e)
  | Ok (measured, distance_km, points) =>
  match measured with
  | [] => (w, Err IndexError)                                                        (* measured_terrain_profile[0], :415 *)
  | _ =>
  let w := Files (f_transmitter w) (f_receiver w) (Some (Shapefile [(lit "elevation", FFloat)] (map sample_feature points))) (f_results w) in   (* :422-434 *)
  match itmlogic_p2p A z p with                                                      (* :438 *)
  | Err e => (w, Err e)
  | Ok out =>
  let (t, o) := csv_writer show (f_results w) (map (p2p_dict A) (out_rows A out)) in (* :441 *)
  (Files (f_transmitter w) (f_receiver w) (f_points w) t, o)
  end end end.

(** area.py:251-301 for the antenna heights, frequency and polarisation in p; 'dh' is the measured irregularity (:282-296). *)
Definition area_program (show : num -> text) (cells : list num) (p : prop A) (w : files) : files * res unit :=
  match interdecile_range A cells with                                               (* :273-278 *)
  | Err e => (w, Err e)
  | Ok tip =>
  match itmlogic_area A (setn p DH (n_Z tip)) with                                   (* :296-298 *)
  | Err e => (w, Err e)
  | Ok rows =>
  let (t, o) := csv_writer show (f_results w) (map (area_dict A) rows) in            (* :301 *)
  (Files (f_transmitter w) (f_receiver w) (f_points w) t, o)
  end end.

(** p2p.py:357-407: the parameters, the surface profile and the terminals of the example. *)
Definition p2p_main_params : prop A := setz (setn (setn (setn (setn (empty_prop A) FMHZ (415 // 10)%num) DKM (778 // 10)%num) HG0 (1439 // 10)%num) HG1 (85 // 10)%num) IPOL 0.
Definition p2p_main_profile : list num := map n_Z [
  96;  84;  65;  46;  46;  46;  61;  41;  33;  27;  23;  19;  15;  15;  15;
  15;  15;  15;  15;  15;  15;  15;  15;  15;  17;  19;  21;  23;  25;  27;
  29;  35;  46;  41;  35;  30;  33;  35;  37;  40;  35;  30;  51;  62;  76;
  46;  46;  46;  46;  46;  46;  50;  56;  67; 106;  83;  95; 112; 137; 137;
  76; 103; 122; 122;  83;  71;  61;  64;  67;  71;  74;  77;  79;  86;  91;
  83;  76;  68;  63;  76; 107; 107; 107; 119; 127; 133; 135; 137; 142; 148;
 152; 152; 107; 137; 104;  91;  99; 120; 152; 152; 137; 168; 168; 122; 137;
 137; 170; 183; 183; 187; 194; 201; 192; 152; 152; 166; 177; 198; 156; 127;
 116; 107; 104; 101;  98;  95; 103;  91;  97; 102; 107; 107; 107; 103;  98;
  94;  91; 105; 122; 122; 122; 122; 122; 137; 137; 137; 137; 137; 137; 137;
 137; 140; 144; 147; 150; 152; 159]%Z.
Definition p2p_main (show : num -> text) (geod : point A * point A -> num) (dem : point A -> option num) : files -> files * res unit :=
  p2p_program show geod dem
    ((-7491679518573545) // 100000000000000000, 5142413477117786 // 100000000000000)%num
    ((-8119433954872186) // 10000000000000000, 5194972494521946 // 100000000000000)%num
    (lit "Crystal Palace radio transmitter") (lit "Mursley") p2p_main_params p2p_main_profile.
(** area.py:284-294. *)
Definition area_main_params : prop A := setz (setn (setn (setn (empty_prop A) HG0 (33 // 10)%num) HG1 (13 // 10)%num) FMHZ (n_Z 20)) IPOL 0.
Definition area_main (show : num -> text) (cells : list num) : files -> files * res unit := area_program show cells area_main_params.
End Mains.
