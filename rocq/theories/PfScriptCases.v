(** Concrete runs of the scripts. *)
From Verif Require Import RTac RInst SpecScripts Scripts SpecAtten PfTerminal PfAreaGrid PfMode PyFloat Cases.
Open Scope R_scope.

Lemma single_distance (c : area_cfg RA) (p : prop RA) rows :
  cfg_D1 RA c <= start_distance (cfg_D0 RA c) (cfg_DS1 RA c) \/ cfg_DS1 RA c <= 0 -> itmlogic_area_cfg RA c p <> Ok rows.
Proof.
  intro H. destruct (grid_none _ _ _ (cfg_D2 RA c) (cfg_DS2 RA c) H) as (ND & NDC & G). eapply area_grid_none. rewrite grid_from_eq. exact G.
Qed.
Lemma area_env_total (p : prop RA) (fmhz : R) ipol : 0 < fmhz -> pn p FMHZ = Some fmhz -> pz p IPOL = Some ipol -> exists q, area_env RA p = Ok q.
Proof.
  intros F Pf Pi. unfold area_env.
  repeat match goal with |- context [getn ?q FMHZ] => rewrite (proj2 (PfLrGen.pn_getn RA q FMHZ fmhz) Pf) end. cbn [bind]. runfold. rewrite r_div_ok by lra. cbn [bind].
  destruct (script_gme_run 301 (157 / 1000000000) (setn (setz (setz (setz (setn (setn (setn p ENS0 301) EPS 15) SGM (1 / 1000)) KLIMX 5) MDVARX 3) KWX 0) WN (fmhz / (477 / 10)))) as (q & E & _ & _ & Fr).
  match goal with |- exists x, bind ?m _ = _ => replace m with (Ok q) by (symmetry; exact E) end. cbn [bind].
  assert (0 < fmhz / (477 / 10)) by (apply Rdiv_lt_0_compat; lra).
  rewrite r_div_ok by lra. cbn [bind]. rewrite r_sqrt_ok by lra. cbn [bind].
  assert (Pq : pz (setz q LVAR 0) IPOL = Some ipol) by (change (pz q IPOL = Some ipol); rewrite (proj1 (proj2 Fr)) by (intros []); exact Pi).
  rewrite (proj2 (PfLrGen.pz_getz RA _ IPOL ipol) Pq). cbn [bind].
  set (t := 37662 / 100 * (1 / 1000) / (fmhz / (477 / 10))).
  assert (T : 0 < t) by (apply Rdiv_lt_0_compat; lra).
  assert (NZ : cnorm2 (15, t) <> 0) by (unfold cnorm2; cbn [fst snd]; nra).
  pose proof (c_div_ok (sqrt (15 - 1), 0) (15, t) NZ) as DV.
  destruct (negb _).
  - eexists. refine (f_equal (fun m => bind m _) DV).
  - cbn [bind]. eauto.
Qed.

(** Paths between two masts of 100 m at 100 MHz, over flat ground and over two hills. *)
Definition path (d : Z) : prop TA := setz (@setns TA [(FMHZ, PI 100); (DKM, PI d); (HG0, PI 100); (HG1, PI 100)] (empty_prop TA)) IPOL 0.
Definition flat : list (num TA) := map PI [0; 0; 0; 0; 0; 0; 0; 0; 0; 0; 0]%Z.
Definition hills : list (num TA) := map PI [0; 0; 0; 0; 300; 0; 400; 0; 0; 0; 0]%Z.
Definition reported (z : list (num TA)) (d : Z) : option (path_kind * mode_msg) :=
  match itmlogic_p2p TA z (path d) with Ok o => Some (out_kind TA o, out_mode TA o) | Err _ => None end.
Lemma reported_inv z d k m : reported z d = Some (k, m) -> exists o, itmlogic_p2p TA z (path d) = Ok o /\ out_kind TA o = k /\ out_mode TA o = m.
Proof. unfold reported. destruct (itmlogic_p2p TA z (path d)) as [o|e]; [|discriminate]. intro H. injection H as <- <-. exists o. auto. Qed.
Lemma mode_case : exists (z z' : list (num TA)) (p p' : prop TA) o o',
  itmlogic_p2p TA z p = Ok o /\ out_kind TA o = LineOfSight /\ out_mode TA o = MsgDiffraction /\
  itmlogic_p2p TA z' p' = Ok o' /\ out_kind TA o' = DoubleHorizon /\ out_mode TA o' = MsgNone.
Proof.
  assert (A : reported flat 10 = Some (LineOfSight, MsgDiffraction)) by (vm_compute; reflexivity).
  assert (B : reported flat 100 = Some (DoubleHorizon, MsgNone)) by (vm_compute; reflexivity).
  apply reported_inv in A as (o & A). apply reported_inv in B as (o' & B). exists flat, flat, (path 10), (path 100), o, o'. tauto.
Qed.
(** The horizons of a prepared path add up to less than its length. *)
Definition obstructed (z : list (num TA)) (p : prop TA) : bool :=
  on_ok (p2p_prepare TA z p) (fun q => match pn q DL0, pn q DL1, pn q DIST with
    | Some a, Some b, Some d => @n_ltb TA (@n_add TA a b) d | _, _, _ => false end).
Lemma obstructed_inv z p : obstructed z p = true -> exists q d0 d1 dist, p2p_prepare TA z p = Ok q /\ pn q DL0 = Some d0 /\ pn q DL1 = Some d1 /\
  pn q DIST = Some dist /\ @n_ltb TA (@n_add TA d0 d1) dist = true.
Proof.
  unfold obstructed, on_ok. destruct (p2p_prepare TA z p) as [q|e]; [|discriminate]. destruct (pn q DL0) as [a|] eqn:A; [|discriminate]. destruct (pn q DL1) as [b|] eqn:B; [|discriminate].
  destruct (pn q DIST) as [d|] eqn:D; [|discriminate]. intro H. exists q, a, b, d. auto.
Qed.
Lemma kind_case : exists (z : list (num TA)) (p q : prop TA) o d0 d1 dist, p2p_prepare TA z p = Ok q /\
  pn q DL0 = Some d0 /\ pn q DL1 = Some d1 /\ pn q DIST = Some dist /\ @n_ltb TA (@n_add TA d0 d1) dist = true /\
  itmlogic_p2p TA z p = Ok o /\ out_kind TA o = LineOfSight.
Proof.
  assert (A : reported hills 30 = Some (LineOfSight, MsgDiffraction)) by (vm_compute; reflexivity).
  assert (B : obstructed hills (path 30) = true) by (vm_compute; reflexivity).
  apply reported_inv in A as (o & A). apply obstructed_inv in B as (q & d0 & d1 & dist & B). exists hills, (path 30), q, o, d0, d1, dist. tauto.
Qed.
(** Loss at the deviates of pimter.py minus loss at the median, for the first and the last height. *)
Definition pimter_excess : res (list (num TA)) :=
  match pimter_prepare TA pimter_terrain pimter_distance, pimter_dev TA with
  | Ok (f, p), Ok z =>
      match pimter_loop TA f z z [PI 10; PI 130] p, pimter_loop TA f (PI 0) (PI 0) [PI 10; PI 130] p with
      | Ok r, Ok r0 => Ok (map (fun x => @n_sub TA (snd (fst x)) (snd (snd x))) (combine r r0)) | Err e, _ | _, Err e => Err e end
  | Err e, _ | _, Err e => Err e
  end.
