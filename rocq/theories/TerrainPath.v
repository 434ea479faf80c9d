(** scripts/p2p.py straight_line_from_points and scripts/terrain_module.py terrain_p2p.  Parameters: [geod], pyproj's geodesic length
    of a line in metres; [dem], rasterstats' point_query of one point ([None] outside the raster). *)
From Verif Require Export Scripts.

Section TerrainPath.
Context (A : arith).
Notation num := (num A).
Local Open Scope num_scope.

Definition point : Type := (num * num)%type.

(** p2p.py:304-337: the coordinates of the line. *)
Definition straight_line_from_points (a b : point) : point * point := ((fst a, snd a), (fst b, snd b)).

(** shapely's LineString.length of a line with two points (terrain_module.py:164). *)
Definition line_length (l : point * point) : res num :=
  let dx := fst (snd l) - fst (fst l) in
  let dy := snd (snd l) - snd (fst l) in
  m_sqrt (dx * dx + dy * dy).

(** shapely's line.interpolate(s), 0 <= s < length, on a line with two points (terrain_module.py:165): the first point if the
    line has no length. *)
Definition line_point (l : point * point) (len s : num) : res point :=
  let (a, b) := l in
  if len =? #0 then Ok a
  else
    let! f := s /? len in
    Ok (fst a + f * (fst b - fst a), snd a + f * (snd b - snd a)).

(** terrain_module.py:131-181: elevations, distance in km, and the points with their elevations; [float(z)] of a missing
    elevation is a TypeError (:176). *)
Definition terrain_p2p (geod : point * point -> num) (dem : point -> option num) (l : point * point)
  : res (list num * num * list (point * num)) :=
  let! len := line_length l in
  let distance_m := geod l in                                          (* :157-158 *)
  let! distance_km := distance_m /? (1000 // 1) in                     (* :159 *)
  let! steps := terrain_sampling A distance_m len in                   (* :162-163 *)
  let! pts := mapM (line_point l len) steps in                         (* :164 *)
  let! features := mapM (fun q => let! z := opt_res TypeError (dem q) in Ok (q, z)) pts in   (* :167-180 *)
  Ok (map snd features, distance_km, features).
End TerrainPath.
