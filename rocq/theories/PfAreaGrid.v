(** area.py: the distance grid. *)
From Verif Require Import RTac Frame SpecScripts Scripts PfMisc PfLsq PfRegime.
From Coq Require Import Sorting.Sorted.
Open Scope R_scope.

Section Grid.
Context (A : arith).
Local Open Scope num_scope.
Fixpoint dists (count : nat) (JD NDC : Z) (D DT DS2 : num A) : list (num A) :=
  match count with
  | O => []
  | S n => let DT := if (JD + 1 =? NDC)%Z then DS2 else DT in D :: dists n (JD + 1) NDC (D + DT) DT DS2
  end.
Lemma area_rows_keys D FS ZT ZL qz (p p' : prop A) rows : area_rows A D FS ZT ZL qz p = Ok (rows, p') ->
  map fst rows = map (fun x => (D, fst x)) qz.
Proof.
  revert p rows. induction qz as [|[q z] qz IH]; intros p rows H; cbn [area_rows] in H; [injection H as <- <-; reflexivity|].
  apply bind_inv in H as [[a p1] [_ H]]. cbn [fst snd] in H. apply bind_inv in H as [[w p2] [E H]]. injection H as <- <-. cbn [map fst]. f_equal. eapply IH; exact E.
Qed.
Lemma area_loop_keys n JD NDC D DT DS2 ZT ZL qz (p : prop A) rows : area_loop A n JD NDC D DT DS2 ZT ZL qz p = Ok rows ->
  map fst rows = flat_map (fun d => map (fun x => (d, fst x)) qz) (dists n JD NDC D DT DS2).
Proof.
  revert JD D DT p rows. induction n as [|n IH]; intros JD D DT p rows H; cbn [area_loop] in H; [injection H as <-; reflexivity|].
  apply bind_inv in H as [lv [_ H]]. apply bind_inv in H as [p1 [_ H]]. apply bind_inv in H as [wn [_ H]]. apply bind_inv in H as [di [_ H]]. apply bind_inv in H as [l [_ H]]. cbv zeta in H.
  apply bind_inv in H as [[u p2] [E1 H]]. cbn [fst snd] in H. apply bind_inv in H as [w [E2 H]]. injection H as <-.
  rewrite map_app. cbn [dists flat_map]. f_equal; [eapply area_rows_keys; exact E1 | eapply IH; exact E2].
Qed.
Lemma mapM_len {S T} (f : S -> res T) l v : mapM f l = Ok v -> length v = length l.
Proof.
  revert v. induction l as [|x l IH]; intros v H; cbn in H; [injection H as <-; reflexivity|].
  apply bind_inv in H as [y [_ H]]. apply bind_inv in H as [w [E H]]. injection H as <-. cbn. f_equal. apply IH. exact E.
Qed.
Lemma combine_fst {S T U} (D : U) (a : list S) (b : list T) : length b = length a -> map (fun x => (D, fst x)) (combine a b) = map (fun q => (D, q)) a.
Proof. revert b. induction a as [|x a IH]; intros [|y b] L; cbn in *; try discriminate; [reflexivity|]. f_equal. apply IH. congruence. Qed.
Lemma area_keys c (p : prop A) rows : itmlogic_area_cfg A c p = Ok rows ->
  exists D0 DS ND NDC, area_grid A c = Ok (D0, Some DS, ND, NDC) /\
    map fst rows = flat_map (fun d => map (fun q => (d, q)) (cfg_QC A c)) (dists (Z.to_nat ND) 0 NDC D0 DS (cfg_DS2 A c)).
Proof.
  unfold itmlogic_area_cfg. intro H. apply bind_inv in H as [qt [_ H]]. apply bind_inv in H as [zt [_ H]]. apply bind_inv in H as [ql [_ H]]. apply bind_inv in H as [zl [_ H]].
  apply bind_inv in H as [qc [E1 H]]. apply bind_inv in H as [zc [E2 H]]. apply bind_inv in H as [[[[D0 DS] ND] NDC] [G H]]. cbn [fst snd] in H.
  apply bind_inv in H as [p1 [_ H]]. apply bind_inv in H as [p2 [_ H]]. apply bind_inv in H as [DT [E3 H]]. apply opt_res_inv in E3. subst DS.
  exists D0, DT, ND, NDC. split; [exact G|]. apply area_loop_keys in H. rewrite H. apply flat_map_ext. intro d. apply combine_fst.
  apply mapM_len in E1. apply mapM_len in E2. congruence.
Qed.
Lemma area_grid_none c D0 ND NDC (p : prop A) rows : area_grid A c = Ok (D0, None, ND, NDC) -> itmlogic_area_cfg A c p <> Ok rows.
Proof. intros G H. apply area_keys in H as (? & ? & ? & ? & E & _). congruence. Qed.
End Grid.

Lemma dists_const n JD NDC (D DT DS2 : R) : (forall j, (0 <= j < Z.of_nat n)%Z -> (JD + j + 1 <> NDC)%Z) ->
  dists RA n JD NDC D DT DS2 = map (fun i => D + INR i * DT) (seq 0 n).
Proof.
  revert JD D. induction n as [|n IH]; intros JD D H; [reflexivity|]. cbn [dists seq map]. cbv zeta.
  replace (JD + 1 =? NDC)%Z with false. 2: { symmetry. apply Z.eqb_neq. specialize (H 0%Z). lia. }
  f_equal; [cbn [INR]; ring|]. rewrite IH. 2: { intros j J. specialize (H (j + 1)%Z). lia. }
  rewrite <- seq_shift, map_map. apply map_ext. intro i. cbn [n_add RA]. rewrite S_INR. ring.
Qed.
Lemma dists_switch k n2 JD (D DT DS2 : R) : (0 <= JD)%Z -> dists RA (S k + n2) JD (JD + Z.of_nat (S k)) D DT DS2 =
  map (fun i => D + INR i * DT) (seq 0 (S k)) ++ map (fun j => D + INR k * DT + INR (S j) * DS2) (seq 0 n2).
Proof.
  revert JD D. induction k as [|k IH]; intros JD D J.
  - cbn [Nat.add dists seq map app]. cbv zeta. change (Z.of_nat 1) with 1%Z. rewrite Z.eqb_refl. f_equal; [cbn [INR]; ring|].
    rewrite dists_const by lia. apply map_ext. intro i. cbn [n_add RA]. rewrite S_INR. cbn [INR]. ring.
  - change (S (S k) + n2)%nat with (S (S k + n2)). cbn [dists]. cbv zeta.
    replace (JD + 1 =? JD + Z.of_nat (S (S k)))%Z with false by (symmetry; apply Z.eqb_neq; lia).
    replace (JD + Z.of_nat (S (S k)))%Z with ((JD + 1) + Z.of_nat (S k))%Z by lia. rewrite IH by lia.
    change (seq 0 (S (S k))) with (0%nat :: seq 1 (S k)). cbn [map app]. f_equal; [cbn [INR]; ring|].
    rewrite <- seq_shift, map_map. f_equal; apply map_ext; intro i; cbn [n_add RA]; rewrite ?S_INR; ring.
Qed.
Lemma start_R c : (let D0 := if r_leb (cfg_D0 RA c) 0 then cfg_DS1 RA c else cfg_D0 RA c in if r_leb D0 0 then 2 else D0) = start_distance (cfg_D0 RA c) (cfg_DS1 RA c).
Proof.
  cbv zeta. unfold start_distance. destruct (Rlt_dec 0 (cfg_D0 RA c)) as [H|H].
  - rewrite (proj2 (r_leb_false (cfg_D0 RA c) 0) H). rewrite (proj2 (r_leb_false (cfg_D0 RA c) 0) H). reflexivity.
  - rewrite (proj2 (r_leb_true (cfg_D0 RA c) 0)) by lra. destruct (Rlt_dec 0 (cfg_DS1 RA c)) as [K|K].
    + rewrite (proj2 (r_leb_false (cfg_DS1 RA c) 0) K). reflexivity.
    + rewrite (proj2 (r_leb_true (cfg_DS1 RA c) 0)) by lra. reflexivity.
Qed.
Definition grid_from (D0 D1 DS1 D2 DS2 : R) : res (R * option R * Z * Z) :=
  let! (ND, D1, DS) :=
    (if r_leb D1 D0 || r_leb DS1 0 then Ok (1%Z, D0, None)
     else let! t := r_div (D1 - D0) DS1 in
       Ok (rfloor (t + 175 / 100), D0 + IZR (rfloor (t + 175 / 100) - 1) * DS1, Some DS1)) in
  if r_leb D2 D1 || r_leb DS2 0 then Ok (D0, DS, ND, 0%Z)
  else let! t := r_div (D2 - D1) DS2 in Ok (D0, DS, (ND + rfloor (t + 75 / 100))%Z, ND).
Lemma grid_from_eq (c : area_cfg RA) : area_grid RA c =
  grid_from (start_distance (cfg_D0 RA c) (cfg_DS1 RA c)) (cfg_D1 RA c) (cfg_DS1 RA c) (cfg_D2 RA c) (cfg_DS2 RA c).
Proof. rewrite <- (start_R c). reflexivity. Qed.
Lemma grid_none (D0 D1 DS1 D2 DS2 : R) : D1 <= D0 \/ DS1 <= 0 -> exists ND NDC, grid_from D0 D1 DS1 D2 DS2 = Ok (D0, None, ND, NDC).
Proof.
  intro H. unfold grid_from. assert (B : r_leb D1 D0 || r_leb DS1 0 = true).
  { destruct H as [H|H]; [rewrite (proj2 (r_leb_true _ _) H); reflexivity | rewrite (proj2 (r_leb_true _ _) H); apply orb_true_r]. }
  rewrite B. cbn [bind fst snd]. destruct (r_leb D2 D0) eqn:E; cbn [orb]; [eauto|]. destruct (r_leb DS2 0) eqn:F; [eauto|].
  apply r_leb_false in F. rewrite r_div_ok by lra. cbn [bind]. eauto.
Qed.
Lemma grid_some (D0 D1 DS1 D2 DS2 : R) : D0 < D1 -> 0 < DS1 -> exists n1 n2 NDC, (1 <= n1)%nat /\
  grid_from D0 D1 DS1 D2 DS2 = Ok (D0, Some DS1, Z.of_nat (n1 + n2), NDC) /\
  (let last := D0 + INR (n1 - 1) * DS1 in reaches D1 DS1 last /\
    ((last < D2 /\ 0 < DS2 /\ NDC = Z.of_nat n1 /\ reaches D2 DS2 (last + INR n2 * DS2)) \/
     (~ (last < D2 /\ 0 < DS2) /\ NDC = 0%Z /\ n2 = 0%nat))).
Proof.
  intros L S. unfold grid_from. rewrite (proj2 (r_leb_false _ _) L), (proj2 (r_leb_false _ _) S). cbn [orb]. rewrite r_div_ok by lra. cbn [bind].
  set (x := (D1 - D0) / DS1). assert (X : 0 < x) by (apply Rdiv_lt_0_compat; lra). assert (EX : x * DS1 = D1 - D0) by (unfold x; field; lra).
  destruct (floor_nat (x + 175 / 100) ltac:(lra)) as (n1 & -> & B1).
  assert (N1 : (1 <= n1)%nat). { assert (H : INR 0 < INR n1 ) by (cbn; lra). apply INR_lt in H. lia. }
  assert (EI : IZR (Z.of_nat n1 - 1) = INR (n1 - 1)) by (rewrite INR_IZR_INZ; f_equal; lia). rewrite EI.
  assert (EJ : INR (n1 - 1) = INR n1 - 1) by (rewrite minus_INR by lia; reflexivity).
  set (last := D0 + INR (n1 - 1) * DS1).
  assert (R1 : reaches D1 DS1 last).
  { unfold reaches, last. rewrite EJ. assert (P1 : (INR n1 - 1) * DS1 <= (x + 3 / 4) * DS1) by (apply Rmult_le_compat_r; lra).
    assert (P2 : (x - 1 / 4) * DS1 < (INR n1 - 1) * DS1) by (apply Rmult_lt_compat_r; lra). lra. }
  destruct (r_leb D2 last) eqn:E; cbn [orb]; rbool.
  { exists n1, 0%nat, 0%Z. split; [exact N1|]. split; [rewrite Nat.add_0_r; reflexivity|]. split; [exact R1|]. right. fold last. split; [intros [? ?]; lra | auto]. }
  destruct (r_leb DS2 0) eqn:F; rbool.
  { exists n1, 0%nat, 0%Z. split; [exact N1|]. split; [rewrite Nat.add_0_r; reflexivity|]. split; [exact R1|]. right. fold last. split; [intros [? ?]; lra | auto]. }
  rewrite r_div_ok by lra. cbn [bind]. set (y := (D2 - last) / DS2). assert (Y : 0 < y) by (apply Rdiv_lt_0_compat; lra).
  destruct (floor_nat (y + 75 / 100) ltac:(lra)) as (n2 & -> & B2). exists n1, n2, (Z.of_nat n1). split; [exact N1|]. split; [do 2 f_equal; f_equal; lia|].
  split; [exact R1|]. left. split; [exact E|]. split; [exact F|]. split; [reflexivity|].
  assert (EY : y * DS2 = D2 - last) by (unfold y; field; lra). fold last. unfold reaches.
  assert (P1 : INR n2 * DS2 <= (y + 3 / 4) * DS2) by (apply Rmult_le_compat_r; lra).
  assert (P2 : (y - 1 / 4) * DS2 < INR n2 * DS2) by (apply Rmult_lt_compat_r; lra). lra.
Qed.
Lemma area_grid_spec (c : area_cfg RA) (p : prop RA) rows : itmlogic_area_cfg RA c p = Ok rows ->
  let D0 := start_distance (cfg_D0 RA c) (cfg_DS1 RA c) in
  D0 < cfg_D1 RA c /\ 0 < cfg_DS1 RA c /\
  exists n1 n2, (1 <= n1)%nat /\
    (let last := D0 + INR (n1 - 1) * cfg_DS1 RA c in
     reaches (cfg_D1 RA c) (cfg_DS1 RA c) last /\
     (if Rlt_dec last (cfg_D2 RA c) then if Rlt_dec 0 (cfg_DS2 RA c) then reaches (cfg_D2 RA c) (cfg_DS2 RA c) (last + INR n2 * cfg_DS2 RA c) else n2 = 0%nat
      else n2 = 0%nat)) /\
    map fst rows = flat_map (fun d => map (fun q => (d, q)) (cfg_QC RA c)) (area_distances D0 (cfg_DS1 RA c) (cfg_DS2 RA c) n1 n2).
Proof.
  intros H D0. destruct (area_keys RA c p rows H) as (E0 & DS & ND & NDC & G & K). rewrite grid_from_eq in G. fold D0 in G.
  destruct (Rlt_dec D0 (cfg_D1 RA c)) as [L|L]. 2: { destruct (grid_none D0 (cfg_D1 RA c) (cfg_DS1 RA c) (cfg_D2 RA c) (cfg_DS2 RA c) ltac:(lra)) as (? & ? & E). congruence. }
  destruct (Rlt_dec 0 (cfg_DS1 RA c)) as [Sp|Sp]. 2: { destruct (grid_none D0 (cfg_D1 RA c) (cfg_DS1 RA c) (cfg_D2 RA c) (cfg_DS2 RA c) ltac:(lra)) as (? & ? & E). congruence. }
  split; [exact L|]. split; [exact Sp|].
  destruct (grid_some D0 (cfg_D1 RA c) (cfg_DS1 RA c) (cfg_D2 RA c) (cfg_DS2 RA c) L Sp) as (n1 & n2 & N & N1 & E & R1 & R2).
  rewrite E in G. injection G as <- <- <- <-. exists n1, n2. split; [exact N1|]. cbv zeta. split.
  { split; [exact R1|]. destruct R2 as [(a & b & _ & r)|(n & _ & z)]; [destruct (Rlt_dec _ _); [|contradiction]; destruct (Rlt_dec _ _); [exact r | contradiction]|].
    destruct (Rlt_dec _ _); [|exact z]. destruct (Rlt_dec _ _); [|exact z]. exfalso. apply n. split; assumption. }
  rewrite K. f_equal. rewrite Nat2Z.id. unfold area_distances. destruct R2 as [(_ & _ & -> & _)|(_ & -> & ->)].
  - destruct n1 as [|k]; [lia|]. change (Z.of_nat (S k)) with (0 + Z.of_nat (S k))%Z. rewrite dists_switch by lia. replace (S k - 1)%nat with k by lia. reflexivity.
  - rewrite Nat.add_0_r. rewrite dists_const by lia. cbn [seq map]. rewrite app_nil_r. reflexivity.
Qed.
Lemma sorted_lt_app (a b : list R) : StronglySorted Rlt a -> StronglySorted Rlt b -> (forall x y, In x a -> In y b -> x < y) -> StronglySorted Rlt (a ++ b).
Proof.
  intros S T H. induction S as [|x a S IH F]; [exact T|]. cbn [app]. constructor; [apply IH; intros; apply H; [right|]; assumption|].
  apply Forall_app. split; [exact F|]. apply Forall_forall. intros y I. apply H; [left; reflexivity | exact I].
Qed.
Lemma sorted_steps (a h : R) k n : 0 < h -> StronglySorted Rlt (map (fun i => a + INR i * h) (seq k n)).
Proof.
  intro H. revert k. induction n as [|n IH]; intro k; cbn [seq map]; [constructor|]. constructor; [apply IH|].
  apply Forall_forall. intros y I. apply in_map_iff in I as (j & <- & J). apply in_seq in J. assert (INR k < INR j) by (apply lt_INR; lia).
  assert (INR k * h < INR j * h) by (apply Rmult_lt_compat_r; assumption). lra.
Qed.
Lemma distances_increasing (D0 DS1 DS2 : R) n1 n2 : 0 < DS1 -> 0 < DS2 \/ n2 = 0%nat -> (1 <= n1)%nat ->
  StronglySorted Rlt (area_distances D0 DS1 DS2 n1 n2) /\ length (area_distances D0 DS1 DS2 n1 n2) = (n1 + n2)%nat.
Proof.
  intros Sp T N. unfold area_distances. split; [|rewrite app_length, !map_length, !seq_length; reflexivity].
  destruct T as [T| ->]; [|cbn [seq map]; rewrite app_nil_r; apply sorted_steps; exact Sp].
  apply sorted_lt_app.
  - apply sorted_steps; exact Sp.
  - rewrite <- (map_map (fun j => S j) (fun j => D0 + INR (n1 - 1) * DS1 + INR j * DS2)), seq_shift. apply sorted_steps; exact T.
  - intros x y I J. apply in_map_iff in I as (i & <- & I). apply in_map_iff in J as (j & <- & J). apply in_seq in I.
    assert (INR i <= INR (n1 - 1)) by (apply le_INR; lia). assert (INR i * DS1 <= INR (n1 - 1) * DS1) by (apply Rmult_le_compat_r; lra).
    assert (0 < INR (S j)) by (apply lt_0_INR; lia). assert (0 < INR (S j) * DS2) by (apply Rmult_lt_0_compat; assumption). lra.
Qed.
