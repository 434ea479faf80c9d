(** The scripts run as programs. *)
From Coq Require Import Lra Lia String Permutation Sorted.
From Verif Require Import RTac SpecCsv SpecPath SpecAreaRun SpecPathRun SpecMains Mains PfMisc PfTerrainMod PfCsv PfPath PfAreaRun4 PfPathCases Arith.
Open Scope Z_scope.

(** ** Any arithmetic *)
Lemma p2p_results (A : arith) (show : num A -> text) geod dem a b na nb (p : prop A) z w : (forall x, no_cr (show x)) ->
  match p2p_program A show geod dem a b na nb p z w with
  | (w', Ok tt) => exists out t, itmlogic_p2p A z p = Ok out /\ f_results A w' = Some t /\
      read_csv t = Some (p2p_sheet A show (out_rows A out))
  | (w', Err _) => f_results A w' = f_results A w
  end.
Proof.
  intro NC. unfold p2p_program. destruct (terrain_p2p A geod dem (straight_line_from_points A a b)) as [[[m km] pts]|e]; [|reflexivity].
  destruct (itmlogic_p2p A z p) as [out|e] eqn:E; [|reflexivity]. cbn [write_shapefile]. destruct (map (sample_feature A) pts) as [|f fs]; [reflexivity|]. cbn [write_shapefile f_results].
  destruct (p2p_file A show (f_results A w) z p out NC E) as (t & -> & R). exists out, t. auto.
Qed.
Lemma p2p_unused (A : arith) (show : num A -> text) geod dem geod' dem' a b na nb (p : prop A) z w m km pts m' km' pts' : 
  terrain_p2p A geod dem (straight_line_from_points A a b) = Ok (m, km, pts) -> terrain_p2p A geod' dem' (straight_line_from_points A a b) = Ok (m', km', pts') -> pts <> [] -> pts' <> [] ->
  f_results A (fst (p2p_program A show geod' dem' a b na nb p z w)) = f_results A (fst (p2p_program A show geod dem a b na nb p z w)) /\
  snd (p2p_program A show geod' dem' a b na nb p z w) = snd (p2p_program A show geod dem a b na nb p z w).
Proof.
  intros T T' N N'. unfold p2p_program. rewrite T, T'. destruct (itmlogic_p2p A z p) as [out|e]; [|auto]. cbn [write_shapefile].
  destruct pts as [|q pts]; [congruence|]. destruct pts' as [|q' pts']; [congruence|]. cbn [map write_shapefile f_results]. destruct (csv_writer show (f_results A w) (map (p2p_dict A) (out_rows A out))) as [t o]. auto.
Qed.
Lemma area_results (A : arith) (show : num A -> text) cells (p : prop A) w : (forall x, no_cr (show x)) ->
  match area_program A show cells p w with
  | (w', Ok tt) => exists tip rows t, interdecile_range A cells = Ok tip /\ itmlogic_area A (setn p DH (n_Z tip)) = Ok rows /\ f_results A w' = Some t /\
      read_csv t = Some (area_sheet A show rows)
  | (w', Err _) => w' = w
  end.
Proof.
  intro NC. unfold area_program. destruct (interdecile_range A cells) as [tip|e]; [|reflexivity]. destruct (itmlogic_area A (setn p DH (n_Z tip))) as [rows|e] eqn:E; [|reflexivity].
  destruct rows as [|r rows]; [destruct w; reflexivity|]. destruct (area_file_rows A show (f_results A w) (r :: rows) NC ltac:(discriminate)) as (t & -> & R). exists tip, (r :: rows), t. auto.
Qed.

(** ** Exact reals *)
Open Scope R_scope.
Lemma p2p_hole (show : R -> text) (geod : (R * R) * (R * R) -> R) (dem : R * R -> option R) a b na nb (p : prop RA) z w : 0 <= geod (a, b) ->
  (exists n k, determine_num_samples RA (geod (a, b)) = Ok (Z.of_nat n) /\ (k < n)%nat /\ dem (on_way a b (part k n)) = None) ->
  p2p_program RA show geod dem a b na nb p z w = (w, Err TypeError).
Proof.
  intros G H. unfold p2p_program. destruct a as [a1 a2], b as [b1 b2]. change (straight_line_from_points RA (a1, a2) (b1, b2)) with ((a1, a2), (b1, b2)).
  pose proof (path_hole geod dem (a1, a2) (b1, b2) G H) as E. cbn [num RA] in *. rewrite E. reflexivity.
Qed.
Lemma p2p_files (show : R -> text) (geod : (R * R) * (R * R) -> R) (dem : R * R -> option R) (h : R * R -> R) a b na nb (p : prop RA) z w :
  (forall x, no_cr (show x)) -> 0 <= geod (a, b) -> (forall u, 0 <= u < 1 -> dem (on_way a b u) = Some (h (on_way a b u))) ->
  (forall e, itmlogic_p2p RA z p = Err e -> p2p_program RA show geod dem a b na nb p z w = (w, Err e)) /\
  (forall out, itmlogic_p2p RA z p = Ok out -> exists n t, (2 <= n <= 600)%nat /\
     read_csv t = Some (p2p_sheet RA show (out_rows RA out)) /\
     p2p_program RA show geod dem a b na nb p z w = (Files RA (Some (one_point RA a na)) (Some (one_point RA b nb))
       (Some (elevations (map (fun k => (on_way a b (part k n), h (on_way a b (part k n)))) (seq 0 n)))) (Some t), Ok tt)).
Proof.
  intros NC G D. destruct (path_samples geod dem a b h G D) as (n & L & _ & E). unfold p2p_program. cbn [num RA] in *. split.
  - intros e H. rewrite E, H. reflexivity.
  - intros out H. rewrite E, H. destruct n as [|n]; [lia|]. cbn [seq map write_shapefile f_results]. destruct (p2p_file RA show (f_results RA w) z p out NC H) as (t & C & R). cbn [num RA] in *. rewrite C.
    exists (S n), t. split; [lia|]. split; [exact R|]. cbn [seq map f_transmitter f_receiver f_points]. unfold elevations. cbn [map fst snd]. rewrite !map_map. reflexivity.
Qed.
(** *** The area program *)
Lemma percentile_span (x : list R) q v : percentile x q v -> exists lo hi, In lo x /\ In hi x /\ lo <= v <= hi.
Proof.
  intros (s & i & lo & hi & P & SS & I & L & H & ->). exists lo, (Rmax lo hi).
  assert (IL : In lo x) by (eapply Permutation_in; [symmetry; exact P | eapply nth_error_In; exact L]).
  assert (LH : lo <= hi /\ In hi x).
  { destruct H as [H | [_ ->]]; [|split; [lra | exact IL]]. split; [|eapply Permutation_in; [symmetry; exact P | eapply nth_error_In; exact H]].
    clear P I IL. revert i L H. induction SS as [|y l SS IH F]; intros i L H; [destruct i; discriminate|]. destruct i as [|i]; cbn in L, H.
    - injection L as <-. rewrite Forall_forall in F. apply F. destruct l as [|c l]; [discriminate|]. injection H as ->. left. reflexivity.
    - exact (IH i L H). }
  destruct LH as [LE IH]. rewrite Rmax_right by exact LE. split; [exact IL|]. split; [exact IH|]. set (u := q / 100 * (INR (length x) - 1) - INR i) in *.
  assert (0 <= u < 1) by (unfold u; lra). split; nra.
Qed.
Lemma idr_span (x : list R) M : x <> [] -> (forall a b, In a x -> In b x -> b - a <= IZR M) -> exists k, interdecile_range RA x = Ok k /\ (0 <= k <= M)%Z.
Proof.
  intros X S. destruct (idr_run x X) as (u & v & U & V & L & E). exists (rrint (u - v)). split; [exact E|].
  destruct (percentile_span x 90 u U) as (l1 & h1 & _ & H1 & B1). destruct (percentile_span x 10 v V) as (l2 & h2 & L2 & _ & B2). pose proof (S l2 h1 L2 H1).
  split; [rewrite <- (rrint_Z 0) | rewrite <- (rrint_Z M)]; apply rrint_mono; lra.
Qed.
Lemma area_exact_files (show : R -> text) (cells : list R) (p : prop RA) f h0 h1 w : (forall x, no_cr (show x)) ->
  cells <> [] -> (forall a b, In a cells -> In b cells -> b - a <= 500) -> area_entries p f h0 h1 ->
  exists k v, interdecile_range RA cells = Ok k /\ (0 <= k <= 500)%Z /\ area_values 2 2 (setn p DH (IZR k)) v /\
    ((exists x, In x script_distances /\ divides_by_zero v (x * 1000)) -> area_program RA show cells p w = (w, Err ZeroDivisionError)) /\
    (~ (exists x, In x script_distances /\ divides_by_zero v (x * 1000)) -> exists rows t,
       map fst rows = flat_map (fun d => map (fun q => (d, q)) [50; 90; 10]) script_distances /\
       read_csv t = Some (area_sheet RA show rows) /\
       itmlogic_area RA (setn p DH (IZR k)) = Ok rows /\
       area_program RA show cells p w = (Files RA (f_transmitter RA w) (f_receiver RA w) (f_points RA w) (Some t), Ok tt)).
Proof.
  intros NC X SP (F & H0 & H1 & I & Hf & Hh0 & Hh1). destruct (idr_span cells 500 X SP) as (k & E & K).
  assert (RQ : area_request (setn p DH (IZR k)) f h0 h1 (IZR k)).
  { unfold area_request. repeat split; try (cbn; assumption || reflexivity); try lra; apply IZR_le; lia. }
  destruct (script_exact _ _ _ _ _ RQ) as (v & V & _ & D1 & D2). exists k, v. split; [exact E|]. split; [exact K|]. split; [exact V|]. unfold area_program. cbn [num RA] in *. rewrite E. change (n_Z k) with (IZR k). split.
  - intro H. rewrite (D1 H). reflexivity.
  - intro H. destruct (D2 H) as (rows & R & M). rewrite R. exists rows.
    assert (NE : rows <> []) by (intros ->; discriminate M).
    destruct (area_file_rows RA show (f_results RA w) rows NC NE) as (t & C & RC). cbn [num RA] in *. rewrite C. exists t. auto.
Qed.
Lemma area_empty (show : R -> text) (p : prop RA) w : exists e, area_program RA show [] p w = (w, Err e).
Proof.
  unfold area_program. destruct (interdecile_range RA []) as [k|e] eqn:E; [|exists e; reflexivity]. exfalso.
  assert (P : forall i, pyget (@nil R) i = Err IndexError) by (intro i; unfold pyget; cbn [length]; destruct (_ || _); [reflexivity | destruct (Z.to_nat _); reflexivity]).
  unfold interdecile_range, np_percentile in E. cbn [sort_desc rev length] in E. destruct (_ /? _)%num as [t|]; [|discriminate]. cbn [bind] in E. destruct (n_floor _) as [l|]; [|discriminate]. cbn [bind] in E. rewrite P in E. discriminate.
Qed.
(** *** The programs as shipped *)
Lemma p2p_main_request : path_request (p2p_main_params RA) (p2p_main_profile RA) 77.8 41.5 143.9 8.5 0.
Proof. unfold path_request. cbn [p2p_main_params pn pz setn setz]. repeat split; try lra; try (cbn; f_equal; lra). vm_compute. lia. Qed.
Lemma area_main_entries : area_entries (area_main_params RA) 20 3.3 1.3.
Proof. unfold area_entries. repeat split; try lra; try (cbn; f_equal; lra). exists 0%Z. reflexivity. Qed.
Lemma two_terrains (a b : R * R) : exists m km q m' km' q' qs qs',
  terrain_p2p RA (fun _ => 77800) (fun _ => Some 0) (straight_line_from_points RA a b) = Ok (m, km, q :: qs) /\
  terrain_p2p RA (fun _ => 77800) (fun _ => Some 4000) (straight_line_from_points RA a b) = Ok (m', km', q' :: qs') /\ m <> m'.
Proof.
  destruct (path_samples (fun _ => 77800) (fun _ => Some 0) a b (fun _ => 0) ltac:(lra) ltac:(reflexivity)) as (n & L & _ & E).
  destruct (path_samples (fun _ => 77800) (fun _ => Some 4000) a b (fun _ => 4000) ltac:(lra) ltac:(reflexivity)) as (n' & L' & _ & E').
  destruct n as [|n]; [lia|]. destruct n' as [|n']; [lia|]. cbn [seq map] in E, E'. do 8 eexists. split; [exact E|]. split; [exact E'|]. intro H. injection H as H _. lra.
Qed.
Lemma p2p_unused_real (show : R -> text) (geod geod' : (R * R) * (R * R) -> R) (dem dem' : R * R -> option R) a b na nb (p : prop RA) z w :
  0 <= geod (a, b) -> 0 <= geod' (a, b) -> (forall u, 0 <= u < 1 -> dem (on_way a b u) <> None /\ dem' (on_way a b u) <> None) ->
  f_results RA (fst (p2p_program RA show geod' dem' a b na nb p z w)) = f_results RA (fst (p2p_program RA show geod dem a b na nb p z w)) /\
  snd (p2p_program RA show geod' dem' a b na nb p z w) = snd (p2p_program RA show geod dem a b na nb p z w).
Proof.
  intros G G' D. set (get := fun (d : R * R -> option R) x => match d x with Some y => y | None => 0 end).
  assert (GD : forall u, 0 <= u < 1 -> dem (on_way a b u) = Some (get dem (on_way a b u))) by (intros u U; unfold get; destruct (D u U) as [N _]; destruct (dem (on_way a b u)); congruence).
  assert (GD' : forall u, 0 <= u < 1 -> dem' (on_way a b u) = Some (get dem' (on_way a b u))) by (intros u U; unfold get; destruct (D u U) as [_ N]; destruct (dem' (on_way a b u)); congruence).
  destruct (path_samples geod dem a b _ G GD) as (n & L & _ & E). destruct (path_samples geod' dem' a b _ G' GD') as (n' & L' & _ & E').
  eapply p2p_unused; [exact E | exact E' | destruct n; [lia | discriminate] | destruct n'; [lia | discriminate]].
Qed.
(** *** Two tiles *)
Lemma tiles_results (A : arith) (show : num A -> text) geod dem a b (p : prop A) z w : (forall x, no_cr (show x)) ->
  match p2p_2tiles_program A show geod dem a b p z w with
  | (w', Ok tt) => exists out t, itmlogic_p2p A z p = Ok out /\ f_results A w' = Some t /\ read_csv t = Some (p2p_sheet A show (out_rows A out))
  | (w', Err _) => f_results A w' = f_results A w
  end.
Proof.
  intro NC. unfold p2p_2tiles_program. destruct (terrain_p2p A geod dem (straight_line_from_points A a b)) as [[[m km] pts]|e]; [|reflexivity].
  destruct m as [|x m]; [reflexivity|]. destruct (itmlogic_p2p A z p) as [out|e] eqn:E; [|reflexivity]. cbn [f_results].
  destruct (p2p_file A show (f_results A w) z p out NC E) as (t & -> & R). exists out, t. auto.
Qed.
Lemma tiles_files (show : R -> text) (geod : (R * R) * (R * R) -> R) (dem : R * R -> option R) (h : R * R -> R) a b (p : prop RA) z w :
  (forall x, no_cr (show x)) -> 0 <= geod (a, b) -> (forall u, 0 <= u < 1 -> dem (on_way a b u) = Some (h (on_way a b u))) ->
  exists n, (2 <= n <= 600)%nat /\ let points := Some (elevations (map (fun k => (on_way a b (part k n), h (on_way a b (part k n)))) (seq 0 n))) in
  (forall e, itmlogic_p2p RA z p = Err e -> p2p_2tiles_program RA show geod dem a b p z w = (Files RA (f_transmitter RA w) (f_receiver RA w) points (f_results RA w), Err e)) /\
  (forall out, itmlogic_p2p RA z p = Ok out -> exists t, read_csv t = Some (p2p_sheet RA show (out_rows RA out)) /\
     p2p_2tiles_program RA show geod dem a b p z w = (Files RA (f_transmitter RA w) (f_receiver RA w) points (Some t), Ok tt)).
Proof.
  intros NC G D. destruct (path_samples geod dem a b h G D) as (n & L & _ & E). exists n. split; [exact L|]. cbv zeta. unfold p2p_2tiles_program. cbn [num RA] in *. rewrite E. destruct n as [|n]; [lia|].
  change (map (fun k => h (on_way a b (part k (S n)))) (seq 0 (S n))) with (h (on_way a b (part 0 (S n))) :: map (fun k => h (on_way a b (part k (S n)))) (seq 1 n)). cbv iota.
  split.
  - intros e H. rewrite H. reflexivity.
  - intros out H. rewrite H. cbn [f_results]. destruct (p2p_file RA show (f_results RA w) z p out NC H) as (t & C & R). cbn [num RA] in *. rewrite C. exists t. split; [exact R | reflexivity].
Qed.
