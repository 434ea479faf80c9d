(** scripts/terrain_module.py:23-61 and :122-128: the irregularity of the terrain around a transmitter.
    The raster window around the buffered point and its mask are parameters: rasterstats' gen_zonal_stats reads the bounding
    box of the geometry, masks the cells outside the geometry and the nodata cells, and calls each function of add_stats
    with that masked array.  numpy's percentile does not look at the mask of a masked array (rasterstats itself takes
    its percentiles of masked.compressed()). *)
From Verif Require Export Scripts.
Open Scope Z_scope.

Section TerrainArea.
Context (A : arith).
Notation num := (num A).

(** A masked array, flattened: each cell with its value and whether it is masked. *)
Definition masked_array := list (num * bool).
(** masked_array.compressed(): the values not masked. *)
Definition compressed (x : masked_array) : list num := map fst (filter (fun c => negb (snd c)) x).

(** terrain_module.py:50-61 after the raster is read; np.percentile (:115) sees every value. *)
Definition terrain_area (window : masked_array) : res Z := interdecile_range A (map fst window).

(** terrain_module.py:122-128 (not called anywhere in the repository). *)
Definition all_data (x : masked_array) : list num := filter (fun v => v >? #0)%num (compressed x).
End TerrainArea.
