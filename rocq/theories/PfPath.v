(** Proofs for C63: the terrain profile sampled between two points. *)
From Verif Require Import RInst SpecPath RTac TerrainPath PfTerrainMod.
From Coq Require Import Lia Lra ZArith.
Import Verif.Arith.
Open Scope R_scope.

Lemma mapM_map {X Y} (f : X -> res Y) (g : X -> Y) (l : list X) : (forall x, In x l -> f x = Ok (g x)) -> mapM f l = Ok (map g l).
Proof.
  induction l as [|x l IH]; intros H; [reflexivity|]. cbn [mapM]. rewrite (H x (or_introl eq_refl)). cbn [bind].
  rewrite IH by (intros; apply H; right; assumption). reflexivity.
Qed.
Lemma mapM_map2 {W X Y} (e : W -> X) (f : X -> res Y) (g : W -> Y) (l : list W) : (forall x, In x l -> f (e x) = Ok (g x)) -> mapM f (map e l) = Ok (map g l).
Proof.
  induction l as [|x l IH]; intros H; [reflexivity|]. cbn [map mapM]. rewrite (H x (or_introl eq_refl)). cbn [bind].
  rewrite IH by (intros; apply H; right; assumption). reflexivity.
Qed.
Lemma mapM_err {X Y} (f : X -> res Y) e (l : list X) : (forall x, In x l -> (exists y, f x = Ok y) \/ f x = Err e) -> (exists x, In x l /\ f x = Err e) -> mapM f l = Err e.
Proof.
  induction l as [|x l IH]; intros H (y & I & E); [destruct I|]. cbn [mapM].
  destruct (H x (or_introl eq_refl)) as [(v & Ev)|Ee]; [|rewrite Ee; reflexivity]. rewrite Ev. cbn [bind].
  destruct I as [->|I]; [rewrite E in Ev; discriminate|]. rewrite IH; [reflexivity | intros; apply H; right; assumption | exists y; split; assumption].
Qed.
Lemma steps_list n (len : R) : (1 <= n)%nat -> terrain_steps RA (Z.of_nat n) len = Ok (map (fun k => part k n * len) (seq 0 n)).
Proof.
  intros N. unfold terrain_steps. cbn [n_div n_mul n_add n_sub n_Z RA]. assert (P : 0 < INR n) by (apply lt_0_INR; lia).
  rewrite <- INR_IZR_INZ. rewrite r_div_ok by lra. cbn [bind]. rewrite Nat2Z.id. f_equal. apply map_ext. intro k. rewrite <- INR_IZR_INZ. unfold part. field. lra.
Qed.
Lemma length_run (a b : R * R) : line_length RA (a, b) = Ok (sqrt ((fst b - fst a) * (fst b - fst a) + (snd b - snd a) * (snd b - snd a))).
Proof.
  unfold line_length. cbn [n_sub n_mul n_add RA fst snd].
  assert (H : 0 <= (fst b - fst a) * (fst b - fst a) + (snd b - snd a) * (snd b - snd a)) by (pose proof (Rle_0_sqr (fst b - fst a)); pose proof (Rle_0_sqr (snd b - snd a)); unfold Rsqr in *; lra).
  change (r_sqrt ValueError ((fst b - fst a) * (fst b - fst a) + (snd b - snd a) * (snd b - snd a)) = Ok (sqrt ((fst b - fst a) * (fst b - fst a) + (snd b - snd a) * (snd b - snd a)))). rewrite r_sqrt_ok by exact H. reflexivity.
Qed.
Lemma point_run (a b : R * R) (u : R) : let len := sqrt ((fst b - fst a) * (fst b - fst a) + (snd b - snd a) * (snd b - snd a)) in
  line_point RA (a, b) len (u * len)%R = Ok (on_way a b u).
Proof.
  intro len. unfold line_point. cbn [n_eqb n_div n_mul n_add n_sub n_Z RA].
  pose proof (Rle_0_sqr (fst b - fst a)) as Sx. pose proof (Rle_0_sqr (snd b - snd a)) as Sy. unfold Rsqr in Sx, Sy.
  unfold r_eqb. destruct (Req_EM_T len 0) as [E|E].
  - unfold len in E. apply sqrt_eq_0 in E; [|lra].
    assert (X : fst b - fst a = 0) by (apply Rsqr_0_uniq; unfold Rsqr; lra). assert (Y : snd b - snd a = 0) by (apply Rsqr_0_uniq; unfold Rsqr; lra).
    f_equal. unfold on_way. rewrite X, Y, !Rmult_0_r, !Rplus_0_r. destruct a; reflexivity.
  - rewrite r_div_ok by exact E. cbn [bind]. f_equal. unfold on_way. replace (u * len / len) with u by (field; exact E). reflexivity.
Qed.

Section Run.
Variables (geod : (R * R) * (R * R) -> R) (dem : R * R -> option R).
Lemma path_run a b : 0 <= geod (a, b) -> exists n, (2 <= n <= 600)%nat /\ determine_num_samples RA (geod (a, b)) = Ok (Z.of_nat n) /\
  terrain_p2p RA geod dem (a, b) =
    bind (mapM (fun q => bind (opt_res TypeError (dem q)) (fun z => Ok (q, z))) (map (fun k => on_way a b (part k n)) (seq 0 n)))
      (fun feats => Ok (map snd feats, geod (a, b) / 1000, feats)).
Proof.
  intro G. destruct (num_range _ G) as (z & E & L). exists (Z.to_nat z). split; [lia|]. rewrite Z2Nat.id by lia. split; [exact E|].
  unfold terrain_p2p. rewrite length_run. cbn [bind]. change (n_div (a := RA)) with r_div. rewrite r_div_ok by (cbn; lra). cbn [bind].
  unfold terrain_sampling. rewrite E. cbn [bind]. rewrite <- (Z2Nat.id z) at 1 by lia. rewrite steps_list by lia. cbn [bind].
  rewrite (mapM_map2 _ _ (fun k => on_way a b (part k (Z.to_nat z)))) by (intros; apply point_run). cbn [bind n_lit RA]. replace (1000 / 1) with 1000 by field. reflexivity.
Qed.
Lemma path_ok a b (h : R * R -> R) : 0 <= geod (a, b) -> (forall u, 0 <= u < 1 -> dem (on_way a b u) = Some (h (on_way a b u))) ->
  exists n, (2 <= n <= 600)%nat /\ determine_num_samples RA (geod (a, b)) = Ok (Z.of_nat n) /\
    terrain_p2p RA geod dem (a, b) = Ok (map (fun k => h (on_way a b (part k n))) (seq 0 n), geod (a, b) / 1000,
      map (fun k => (on_way a b (part k n), h (on_way a b (part k n)))) (seq 0 n)).
Proof.
  intros G D. destruct (path_run a b G) as (n & L & E & ->). exists n. split; [exact L|]. split; [exact E|].
  rewrite (mapM_map2 _ _ (fun k => (on_way a b (part k n), h (on_way a b (part k n))))).
  - cbn [bind]. rewrite map_map. reflexivity.
  - intros k I. apply in_seq in I. assert (P : 0 < INR n) by (apply lt_0_INR; lia). rewrite D; [reflexivity|]. unfold part. split.
    + apply Rmult_le_pos; [apply pos_INR | left; apply Rinv_0_lt_compat; exact P].
    + apply (Rmult_lt_reg_r (INR n)); [exact P|]. unfold Rdiv. rewrite Rmult_assoc, Rinv_l by lra. rewrite Rmult_1_r, Rmult_1_l. apply lt_INR. lia.
Qed.
Lemma path_hole a b : 0 <= geod (a, b) -> (exists n k, determine_num_samples RA (geod (a, b)) = Ok (Z.of_nat n) /\ (k < n)%nat /\ dem (on_way a b (part k n)) = None) ->
  terrain_p2p RA geod dem (a, b) = Err TypeError.
Proof.
  intros G (m & k & Em & Lk & D). destruct (path_run a b G) as (n & L & E & ->). rewrite E in Em. injection Em as Em. apply Nat2Z.inj in Em. subst m.
  rewrite (mapM_err _ TypeError); [reflexivity| |].
  - intros q _. destruct (dem q) as [z|]; [left; exists (q, z); reflexivity | right; reflexivity].
  - exists (on_way a b (part k n)). split; [apply in_map_iff; exists k; split; [reflexivity | apply in_seq; lia] | rewrite D; reflexivity].
Qed.
End Run.

Lemma on_way_back a b u : on_way b a u = on_way a b (1 - u).
Proof. unfold on_way. f_equal; ring. Qed.
Lemma part_back k n : (0 < n)%nat -> (k <= n)%nat -> 1 - part k n = part (n - k) n.
Proof. intros N K. unfold part. rewrite minus_INR by exact K. field. apply not_0_INR. lia. Qed.

(** Both directions. *)
Lemma path_back (geod : (R * R) * (R * R) -> R) (dem : R * R -> option R) (a b : R * R) (h : R * R -> R) : 0 <= geod (a, b) -> geod (b, a) = geod (a, b) -> (forall q, dem q = Some (h q)) ->
  exists n prof km feats prof' feats', (2 <= n)%nat /\ length prof = n /\ length prof' = n /\
    terrain_p2p RA geod dem (a, b) = Ok (prof, km, feats) /\ terrain_p2p RA geod dem (b, a) = Ok (prof', km, feats') /\
    nth_error prof 0 = Some (h a) /\ nth_error prof' 0 = Some (h b) /\
    forall k, (0 < k < n)%nat -> nth_error prof' k = nth_error prof (n - k).
Proof.
  intros G S D. destruct (path_ok geod dem a b h G ltac:(intros; apply D)) as (n & L & E & R1).
  destruct (path_ok geod dem b a h ltac:(rewrite S; exact G) ltac:(intros; apply D)) as (m & L' & E' & R2). rewrite S, E in E'. injection E' as E'. apply Nat2Z.inj in E'. subst m.
  rewrite S in R2. do 6 eexists. split; [exact (proj1 L)|]. split; [|split; [|split; [exact R1|split; [exact R2|]]]]; try (rewrite map_length, seq_length; reflexivity).
  assert (NE : forall a b k, (k < n)%nat -> nth_error (map (fun k => h (on_way a b (part k n))) (seq 0 n)) k = Some (h (on_way a b (part k n)))).
  { intros a0 b0 k K. rewrite nth_error_map, (nth_error_nth' _ 0%nat) by (rewrite seq_length; exact K). rewrite seq_nth by exact K. reflexivity. }
  assert (P0 : part 0 n = 0) by (unfold part; cbn [INR]; unfold Rdiv; apply Rmult_0_l).
  assert (W0 : forall a b, on_way a b 0 = a) by (intros (x, y) b0; unfold on_way; cbn [fst snd]; f_equal; ring).
  split; [rewrite NE by lia; rewrite P0, W0; reflexivity|]. split; [rewrite NE by lia; rewrite P0, W0; reflexivity|].
  intros k K. rewrite !NE by lia. rewrite on_way_back, part_back by lia. reflexivity.
Qed.
(** Where p2p.py puts the samples. *)
Lemma path_place (geod : (R * R) * (R * R) -> R) (dem : R * R -> option R) (a b : R * R) (h : R * R -> R) : 0 <= geod (a, b) -> (forall q, dem q = Some (h q)) ->
  exists n prof km feats f, (2 <= n <= 600)%nat /\ terrain_p2p RA geod dem (a, b) = Ok (prof, km, feats) /\
    (0 < geod (a, b) -> p2p_profile RA km prof = Ok f /\ pf_xi f = geod (a, b) / INR (n - 1) /\
      forall k, (k < n)%nat -> nth_error prof k = Some (h (on_way a b (part k n))) /\
        INR k * pf_xi f - part k n * geod (a, b) = INR k * geod (a, b) / (INR n * INR (n - 1))).
Proof.
  intros G D. destruct (path_ok geod dem a b h G ltac:(intros; apply D)) as (n & L & E & R1).
  exists n, (map (fun k => h (on_way a b (part k n))) (seq 0 n)), (geod (a, b) / 1000). do 2 eexists. split; [exact L|]. split; [exact R1|]. intros Gp.
  assert (N1 : 0 < INR (n - 1)) by (apply lt_0_INR; lia). assert (N0 : 0 < INR n) by (apply lt_0_INR; lia).
  unfold p2p_profile. rewrite map_length, seq_length. replace (Z.of_nat n - 1)%Z with (Z.of_nat (n - 1)) by lia.
  cbn [n_leb n_mul n_div n_Z RA]. unfold r_leb. destruct (Rle_dec (geod (a, b) / 1000) 0) as [C|_]; [lra|].
  replace (Z.of_nat (n - 1) =? 0)%Z with false by (symmetry; apply Z.eqb_neq; lia). rewrite <- INR_IZR_INZ. rewrite r_div_ok by lra. cbn [bind].
  split; [reflexivity|]. cbn [pf_xi]. split; [change (geod (a, b) / 1000 * 1000 / INR (n - 1) = geod (a, b) / INR (n - 1)); field; lra|]. intros k K. split.
  - rewrite nth_error_map, (nth_error_nth' _ 0%nat) by (rewrite seq_length; exact K). rewrite seq_nth by exact K. reflexivity.
  - unfold part. change (INR k * (geod (a, b) / 1000 * 1000 / INR (n - 1)) - INR k / INR n * geod (a, b) = INR k * geod (a, b) / (INR n * INR (n - 1))).
    rewrite minus_INR in * by lia. cbn [INR] in *. field. lra.
Qed.

Lemma path_other_end (geod : (R * R) * (R * R) -> R) (a b : R * R) : a <> b -> 0 <= geod (a, b) -> geod (b, a) = geod (a, b) ->
  exists h : R * R -> R, forall prof km feats prof' km' feats',
    terrain_p2p RA geod (fun q => Some (h q)) (a, b) = Ok (prof, km, feats) -> terrain_p2p RA geod (fun q => Some (h q)) (b, a) = Ok (prof', km', feats') ->
    prof' <> rev prof.
Proof.
  intros N G S. pose (h := fun q : R * R => if Req_EM_T (fst q) (fst b) then if Req_EM_T (snd q) (snd b) then 1 else 0 else 0).
  exists h. intros prof km feats prof' km' feats' H1 H2 E.
  destruct (path_ok geod (fun q => Some (h q)) a b h G ltac:(intros; reflexivity)) as (n & L & _ & R1).
  destruct (path_ok geod (fun q => Some (h q)) b a h ltac:(rewrite S; exact G) ltac:(intros; reflexivity)) as (m & L' & _ & R2).
  pose proof (eq_trans (eq_sym R1) H1) as K1. injection K1 as <- _ _. pose proof (eq_trans (eq_sym R2) H2) as K2. injection K2 as <- _ _.
  assert (I : In 1 (map (fun k => h (on_way b a (part k m))) (seq 0 m))).
  { apply in_map_iff. exists 0%nat. split; [|apply in_seq; lia]. assert (P0 : part 0 m = 0) by (unfold part; cbn [INR]; unfold Rdiv; apply Rmult_0_l). rewrite P0.
    unfold h, on_way. cbn [fst snd]. destruct (Req_EM_T _ _) as [_|C]; [|contradiction C; ring]. destruct (Req_EM_T _ _) as [_|C]; [reflexivity | contradiction C; ring]. }
  change (num RA) with R in *. rewrite E in I. apply in_rev in I. apply in_map_iff in I. destruct I as (k & Ek & Ik). apply in_seq in Ik.
  assert (P : 0 < INR n) by (apply lt_0_INR; lia).
  assert (U : part k n < 1). { unfold part. apply (Rmult_lt_reg_r (INR n)); [exact P|]. unfold Rdiv. rewrite Rmult_assoc, Rinv_l by lra. rewrite Rmult_1_r, Rmult_1_l. apply lt_INR. lia. }
  unfold h, on_way in Ek. cbn [fst snd] in Ek. destruct (Req_EM_T _ _) as [X|_] in Ek; [|lra]. destruct (Req_EM_T _ _) as [Y|_] in Ek; [|lra].
  assert (Z1 : (1 - part k n) * (fst a - fst b) = 0) by lra. assert (Z2 : (1 - part k n) * (snd a - snd b) = 0) by lra.
  apply Rmult_integral in Z1. apply Rmult_integral in Z2. apply N. destruct a, b. cbn [fst snd] in *. f_equal; lra.
Qed.
Lemma path_samples (geod : (R * R) * (R * R) -> R) (dem : R * R -> option R) (a b : R * R) (h : R * R -> R) :
  0 <= geod (a, b) -> (forall u, 0 <= u < 1 -> dem (on_way a b u) = Some (h (on_way a b u))) ->
  exists n, (2 <= n <= 600)%nat /\ determine_num_samples RA (geod (a, b)) = Ok (Z.of_nat n) /\
    terrain_p2p RA geod dem (straight_line_from_points RA a b) =
      Ok (map (fun k => h (on_way a b (part k n))) (seq 0 n), geod (a, b) / 1000,
          map (fun k => (on_way a b (part k n), h (on_way a b (part k n)))) (seq 0 n)).
Proof. destruct a, b. exact (path_ok geod dem _ _ h). Qed.
Lemma plane_case : let geod := fun l : (R * R) * (R * R) => Rabs (fst (fst l) - fst (snd l)) + Rabs (snd (fst l) - snd (snd l)) in
  let a := (0, 0) in let b := (300, 400) in a <> b /\ 0 <= geod (a, b) /\ geod (b, a) = geod (a, b) /\ 0 < geod (a, b).
Proof.
  cbn [fst snd]. cbv zeta. split; [intro E; injection E; lra|]. rewrite (Rabs_minus_sym 300 0), (Rabs_minus_sym 400 0). rewrite !Rabs_left by lra. repeat split; lra.
Qed.
