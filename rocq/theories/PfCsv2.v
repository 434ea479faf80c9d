(** Proofs for C62: the tables can be pivoted (vis/vis.py). *)
From Verif Require Import RInst SpecScripts Scripts PfP2P PfAreaGrid.
From Coq Require Import Lia Sorting.Sorted Reals Lra.
Open Scope R_scope.

Lemma sorted_nodup : forall l, StronglySorted Rlt l -> NoDup l.
Proof.
  induction l as [|x l IH]; intros H; [constructor|]. inversion H as [|? ? Hl F]; subst. constructor; [|exact (IH Hl)].
  intro I. rewrite Forall_forall in F. specialize (F x I). lra.
Qed.
Lemma nodup_product : forall (A B : Type) (l : list A) (m : list B), NoDup l -> NoDup m -> NoDup (flat_map (fun a => map (fun b => (a, b)) m) l).
Proof.
  induction l as [|a l IH]; intros m Nl Nm; [constructor|]. inversion Nl as [|? ? Na Nl']; subst. cbn [flat_map].
  assert (G : forall m', NoDup m' -> NoDup (map (fun b => (a, b)) m' ++ flat_map (fun a => map (fun b => (a, b)) m) l)).
  { induction m' as [|b m' IHm]; intros N; [exact (IH m Nl' Nm)|]. inversion N as [|? ? Nb N']; subst. cbn [map app]. constructor; [|exact (IHm N')].
    intro I. apply in_app_or in I. destruct I as [I|I].
    - apply in_map_iff in I. destruct I as (b' & E & I). injection E as ->. exact (Nb I).
    - apply in_flat_map in I. destruct I as (a' & I & J). apply in_map_iff in J. destruct J as (b' & E & _). injection E as -> ->. exact (Na I). }
  exact (G m Nm).
Qed.
Lemma area_pivot : forall (c : area_cfg RA) (p : prop RA) rows, itmlogic_area_cfg RA c p = Ok rows -> NoDup (cfg_QC RA c) ->
  NoDup (map fst rows) /\ forall d q, In d (map (fun r => fst (fst r)) rows) -> In q (cfg_QC RA c) -> In (d, q) (map fst rows).
Proof.
  intros c p rows H NQ. destruct (area_grid_spec _ _ _ H) as (_ & D1 & n1 & n2 & L & (R1 & R2) & E). rewrite E.
  assert (I : 0 < cfg_DS2 RA c \/ n2 = 0%nat).
  { destruct (Rlt_dec _ _) in R2; [destruct (Rlt_dec _ _) in R2|]; auto. }
  split; [apply nodup_product; [|exact NQ]; apply sorted_nodup; exact (proj1 (distances_increasing _ _ _ n1 n2 D1 I L))|].
  intros d q Id Iq. rewrite <- (map_map fst fst), E in Id. apply in_map_iff in Id. destruct Id as ((d', q') & <- & Id). cbn [fst].
  apply in_flat_map in Id. destruct Id as (x & Ix & Id). apply in_map_iff in Id. destruct Id as (y & Ey & Iy). injection Ey as -> ->.
  apply in_flat_map. exists d'. split; [exact Ix|]. apply in_map_iff. exists q. split; [reflexivity | exact Iq].
Qed.
Lemma area_legend : forall (p : prop RA) rows, itmlogic_area RA p = Ok rows ->
  NoDup (map fst rows) /\ (forall c, In c (map (fun r => snd (fst r)) rows) <-> c = 10 \/ c = 50 \/ c = 90) /\
  forall d c, In d (map (fun r => fst (fst r)) rows) -> In c [10; 50; 90] -> In (d, c) (map fst rows).
Proof.
  intros p rows H. assert (NQ : NoDup (cfg_QC RA (area_default RA))).
  { cbn. repeat constructor; cbn; unfold n_Z; cbn; intros HI; repeat (destruct HI as [HI|HI]; [lra|]); exact HI. }
  destruct (area_pivot _ _ _ H NQ) as (N & F). split; [exact N|].
  assert (Q : forall c, In c (cfg_QC RA (area_default RA)) <-> c = 10 \/ c = 50 \/ c = 90) by (intro c; cbn; intuition (subst; auto)).
  split.
  - intro c. split.
    + intro I. apply Q. destruct (area_grid_spec _ _ _ H) as (_ & _ & n1 & n2 & _ & _ & E). rewrite <- (map_map fst snd), E in I.
      apply in_map_iff in I. destruct I as ((d', q') & <- & I). apply in_flat_map in I. destruct I as (x & Ix & I). apply in_map_iff in I. destruct I as (y & Ey & Iy). injection Ey as -> ->. exact Iy.
    + intro I. apply Q in I. destruct rows as [|r rows].
      * exfalso. destruct (area_grid_spec _ _ _ H) as (_ & _ & n1 & n2 & L & _ & E). destruct n1 as [|n1]; [lia|]. discriminate E.
      * specialize (F (fst (fst r)) c (or_introl eq_refl) I). rewrite <- (map_map fst snd). apply in_map_iff. exists (fst (fst r), c). split; [reflexivity | exact F].
  - intros d c Id Ic. apply F; [exact Id|]. apply Q. cbn in Ic. intuition (subst; auto).
Qed.
Lemma p2p_legend : forall z (p : prop RA) out, itmlogic_p2p RA z p = Ok out ->
  let pairs := map (fun r : R * R * R * R => let '(d, r, c, l) := r in (r, c)) (out_rows RA out) in
  NoDup pairs /\ (forall r c, In (r, c) pairs <-> In r [1; 10; 50; 90; 99] /\ In c [10; 50; 90]).
Proof.
  intros z p out H pairs. destruct (p2p_out_rows _ _ _ _ H) as (q & d & _ & _ & _ & F).
  assert (E : pairs = map (fun rc : Z * Z => (IZR (fst rc), IZR (snd rc))) p2p_levels).
  { subst pairs. revert F. generalize (out_rows RA out) p2p_levels. induction l as [|row l IH]; intros lv F; inversion F as [|rc ? lv' ? Hr F']; subst; [reflexivity|].
    cbn [map]. rewrite (IH _ F'). destruct Hr as (zr & zc & a & q' & _ & _ & _ & ->). reflexivity. }
  rewrite E. split.
  - cbn. repeat constructor; cbn; intros HI; repeat (destruct HI as [HI|HI]; [injection HI; intros; lra|]); exact HI.
  - intros r c. cbn. split.
    + intros HI. repeat (destruct HI as [HI|HI]; [injection HI as <- <-; split; auto 10|]). destruct HI.
    + intros (Hr & Hc). repeat (destruct Hr as [Hr|Hr]; [subst r; repeat (destruct Hc as [Hc|Hc]; [subst c; auto 20|]); destruct Hc|]). destruct Hr.
Qed.
