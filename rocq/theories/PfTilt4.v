(** Statements of C66. *)
From Coq Require Import Lra Lia.
From Verif Require Import RTac Frame SpecTilt Stats Prep Scripts PfHzns PfTilt PfTilt2 PfTilt3.
Open Scope R_scope.
Implicit Types p q : prop RA.

Lemma zero_over (x : R) : 0 / x = 0.
Proof. unfold Rdiv. ring. Qed.
Lemma start a b f p q v : path_entries p f v -> same_entries p q -> ppfl q = Some (add_line f a b) -> lined 0 [] a b f p q.
Proof. intros (P & _) S Q. split; [apply same_near; exact S|]. split; assumption. Qed.
Lemma qlrpfl_datum p q f v (c : R) : path_entries p f v -> same_entries p q -> ppfl q = Some (add_line f c 0) -> same_outcome same_entries (qlrpfl RA p) (qlrpfl RA q).
Proof.
  intros P S Q. refine (so_and _ _ _ _ (qlrpfl_turn 0 [] p q f v c 0 eq_refl P (start _ _ _ _ _ _ P S Q) (or_introl eq_refl)) _).
  intros p' q' _ _ (N & _). rewrite zero_over in N. apply near_same. exact N.
Qed.
Lemma qlrpfl_tilt p q f v (a b : R) : path_entries p f v -> same_entries p q -> ppfl q = Some (add_line f a b) -> obstructed f (v HG0) (v HG1) (v GME) ->
  same_outcome (fun p' q' => turned_by (b / (pf_xi f : R)) [KWX] p' q' /\ (gentle p' -> gentle q' -> pz q' KWX = pz p' KWX)) (qlrpfl RA p) (qlrpfl RA q).
Proof. intros P S Q C. exact (qlrpfl_turn_kwx 0 p q f v a b P (start _ _ _ _ _ _ P S Q) C). Qed.
Lemma hzns_tilt f (a b hg0 hg1 gme t0 t1 d0 d1 : R) : well_formed f -> hzns RA f (path_length f) hg0 hg1 gme = Ok (t0, t1, d0, d1) ->
  hzns RA (add_line f a b) (path_length f) hg0 hg1 gme = Ok (t0 + b / (pf_xi f : R), t1 - b / (pf_xi f : R), d0, d1).
Proof.
  intros W E. pose proof (hzns_turn f a b hg0 hg1 gme W) as T. rewrite E in T. destruct (hzns RA (add_line f a b) _ _ _ _) as [[[[t0' t1'] d0'] d1']|]; [|contradiction]. destruct T as (-> & -> & -> & ->). reflexivity.
Qed.
Lemma p2p_datum (z : list R) p (d h0 h1 c : R) : (2 <= length z)%nat -> pn p DKM = Some d -> 0 < d -> pn p HG0 = Some h0 -> pn p HG1 = Some h1 -> 0 < h0 -> 0 < h1 ->
  itmlogic_p2p RA (map (fun x => x + c) z) p = itmlogic_p2p RA z p.
Proof. intros. rewrite map_inclined. eapply p2p_turn; eauto. Qed.
Lemma p2p_tilt (z : list R) p (d h0 h1 a b : R) : (2 <= length z)%nat -> pn p DKM = Some d -> 0 < d -> pn p HG0 = Some h0 -> pn p HG1 = Some h1 -> 0 < h0 -> 0 < h1 ->
  obstructed (script_path d z) h0 h1 script_curvature -> itmlogic_p2p RA (inclined a b z) p = itmlogic_p2p RA z p.
Proof. intros. eapply p2p_turn; eauto. Qed.
Lemma pimter_datum (z dist : list R) (d0 d1 c : R) : length z = length dist -> nth_error dist 0 = Some d0 -> nth_error dist 1 = Some d1 -> d0 < d1 ->
  run_itmlogic RA (map (fun x => x + c) z) dist = run_itmlogic RA z dist.
Proof. intros. rewrite map_inclined. eapply pimter_turn; eauto. Qed.
Lemma pimter_tilt (z dist : list R) (d0 d1 a b : R) : length z = length dist -> nth_error dist 0 = Some d0 -> nth_error dist 1 = Some d1 -> d0 < d1 ->
  (forall k, (10 <= k <= 130)%nat -> obstructed (walked_path dist z) 2.56 (INR k) script_curvature) -> run_itmlogic RA (inclined a b z) dist = run_itmlogic RA z dist.
Proof. intros. eapply pimter_turn; eauto. Qed.
